(** C43: basic HTML. *)
From Verif Require Import Base HtmlSpec HtmlModel.
From Coq Require Import String.
Open Scope Z_scope.
Notation length := List.length.

(** ** Searching *)
Lemma index_byte_some : forall s c i, index_byte c s = Some i -> exists a b, s = a ++ c :: b /\ ~ In c a /\ i = Z.of_nat (length a).
Proof.
  induction s as [|x s IH]; intros c i H; cbn [index_byte] in H; [discriminate|]. destruct (Z.eqb_spec x c) as [->|N].
  - injection H as <-. now exists [], s.
  - destruct (index_byte c s) as [j|] eqn:E; [|discriminate]. injection H as <-. destruct (IH c j E) as (a & b & -> & Na & ->). exists (x :: a), b. repeat split; [|cbn [length]; lia].
    intros [X|X]; [now apply N|now apply Na].
Qed.
Lemma index_byte_none : forall s c, index_byte c s = None -> ~ In c s.
Proof.
  induction s as [|x s IH]; intros c H; cbn [index_byte] in H; [easy|]. destruct (Z.eqb_spec x c) as [->|N]; [discriminate|].
  destruct (index_byte c s) eqn:E; [discriminate|]. intros [X|X]; [now apply N|now apply (IH c E)].
Qed.
Lemma skipn_pre {A} (a b : list A) : skipn (Z.to_nat (Z.of_nat (length a))) (a ++ b) = b.
Proof. rewrite Nat2Z.id, skipn_app, skipn_all, Nat.sub_diag. reflexivity. Qed.
Lemma slice_mid {A} (a b c : list A) x y : x = Z.of_nat (length a) -> y = Z.of_nat (length a) + Z.of_nat (length b) -> slice (a ++ b ++ c) x y = Some b.
Proof.
  intros -> ->. unfold slice. rewrite !app_length. replace (_ && _ && _) with true by lia. rewrite skipn_pre.
  replace (Z.to_nat (Z.of_nat (length a) + Z.of_nat (length b) - Z.of_nat (length a))) with (length b) by lia. rewrite firstn_app, firstn_all, Nat.sub_diag. cbn. now rewrite app_nil_r.
Qed.
Lemma at_mid {A} (a : list A) x b i : i = Z.of_nat (length a) -> at_ (a ++ x :: b) i = Some x.
Proof. intros ->. unfold at_. replace (_ <? 0) with false by lia. rewrite Nat2Z.id, nth_error_app2, Nat.sub_diag by lia. reflexivity. Qed.

(** ** Splitting and attributes *)
Lemma split_on_acc : forall s cur, exists w ws, split_on s cur = (rev cur ++ first_word s) :: ws /\ w = tt.
Proof.
  induction s as [|x s IH]; intros cur; cbn [split_on first_word]; [exists tt, []; now rewrite app_nil_r|].
  destruct (x =? space); [exists tt; eexists; now rewrite app_nil_r|]. destruct (IH (x :: cur)) as (w & ws & E & _). exists tt, ws. rewrite E. cbn [rev]. now rewrite <- app_assoc.
Qed.
Lemma split_word : forall w s cur, ~ In space w -> split_on (w ++ space :: s) cur = (rev cur ++ w) :: split_on s [].
Proof.
  induction w as [|x w IH]; intros s cur H; cbn [app split_on].
  - now rewrite app_nil_r.
  - destruct (Z.eqb_spec x space) as [->|N]; [exfalso; apply H; now left|]. rewrite IH by (intros X; apply H; now right). cbn [rev]. now rewrite <- app_assoc.
Qed.
Lemma split_last : forall w cur, ~ In space w -> split_on w cur = [rev cur ++ w].
Proof.
  induction w as [|x w IH]; intros cur H; cbn [split_on]; [now rewrite app_nil_r|].
  destruct (Z.eqb_spec x space) as [->|N]; [exfalso; apply H; now left|]. rewrite IH by (intros X; apply H; now right). cbn [rev]. now rewrite <- app_assoc.
Qed.
Definition part (a : attribute) : bytes := a_key a ++ [61] ++ a_quote a ++ a_val a ++ a_quote a.
Lemma split_tag : forall attrs name, plain name attrs -> split_on (tag_text name attrs) [] = name :: map part attrs.
Proof.
  induction attrs as [|a attrs IH]; intros name [Hn Ha]; unfold tag_text; cbn [flat_map map].
  - rewrite app_nil_r. now apply split_last.
  - inversion Ha as [|? ? H Hr]; subst. destruct H as (_ & _ & Q & K & V & _). change ([space] ++ a_key a ++ [61] ++ a_quote a ++ a_val a ++ a_quote a) with (space :: part a).
    cbn [app]. rewrite split_word by exact Hn. cbn [rev app]. f_equal. specialize (IH (part a)). unfold tag_text in IH. apply IH. split; [|exact Hr].
    unfold part. rewrite !in_app_iff. assert (~ In space (a_quote a)) by (destruct Q as [->|[->| ->]]; unfold space; cbn; lia). unfold space in *. cbn. intuition lia.
Qed.
Lemma span_app ok : forall a b, Forall (fun c => ok c = true) a -> match b with [] => True | c :: _ => ok c = false end -> span ok (a ++ b) = (a, b).
Proof.
  induction a as [|x a IH]; intros b Ha Hb; cbn [app span].
  - destruct b as [|c b]; [reflexivity|]. cbn [span]. now rewrite Hb.
  - inversion Ha as [|? ? Hx Hr]; subst. rewrite Hx. now rewrite IH.
Qed.
Lemma notin_forall (P : Z -> bool) a : (forall c, In c a -> P c = true) -> Forall (fun c => P c = true) a.
Proof. intros H. now apply Forall_forall. Qed.
Lemma find_attrs_part a : a_key a <> [] -> a_val a <> [] -> quote_ok (a_quote a) -> ~ In 61 (a_key a) -> ~ In 34 (a_val a) -> ~ In 39 (a_val a) ->
  find_attrs (S (length (part a))) (part a) = [(a_key a, a_val a)].
Proof.
  intros Hk Hv Hq K V1 V2. destruct (length (part a)) as [|n] eqn:L; [unfold part in L; rewrite app_length in L; cbn in L; lia|].
  cbn [find_attrs]. unfold part at 1.
  rewrite (span_app _ (a_key a) ([61] ++ a_quote a ++ a_val a ++ a_quote a)); [| |reflexivity].
  2:{ apply notin_forall. intros c Hc. apply negb_true_iff, Z.eqb_neq. intros ->. now apply K. }
  cbn [app]. destruct (a_key a) as [|k ks] eqn:Ek; [easy|].
  set (r' := match a_quote a ++ a_val a ++ a_quote a with c :: t => if is_quote c then t else a_quote a ++ a_val a ++ a_quote a | [] => _ end).
  assert (Er : r' = a_val a ++ a_quote a).
  { unfold r'. destruct Hq as [->|[->| ->]]; cbn [app]; [|reflexivity|reflexivity]. rewrite app_nil_r. destruct (a_val a) as [|v vs]; [easy|].
    replace (is_quote v) with false; [reflexivity|]. symmetry. apply orb_false_iff. split; apply Z.eqb_neq; intros ->; [apply V1|apply V2]; now left. }
  rewrite Er, span_app.
  - destruct (a_val a) as [|v vs]; [easy|]. f_equal. destruct Hq as [->|[->| ->]]; destruct n; reflexivity.
  - apply notin_forall. intros c Hc. apply negb_true_iff. apply orb_false_iff. split; apply Z.eqb_neq; intros ->; [now apply V1|now apply V2].
  - destruct Hq as [->|[->| ->]]; cbn; auto.
Qed.
Definition agets (k : bytes) (m : list (bytes * bytes)) : option bytes := option_map snd (find (fun e => beqb (fst e) k) m).
Lemma find_app {A} (f : A -> bool) a b : find f (a ++ b) = match find f a with Some x => Some x | None => find f b end.
Proof. induction a as [|x a IH]; [reflexivity|]. cbn. destruct (f x); auto. Qed.
Lemma agets_set m e k : agets k (set_attr m e) = if beqb (fst e) k then Some (snd e) else agets k m.
Proof.
  unfold agets, set_attr. rewrite find_app. cbn [find]. destruct (beqb (fst e) k) eqn:E.
  - apply beqb_eq in E. subst k. replace (find _ (filter _ m)) with (@None (bytes * bytes)); [reflexivity|]. symmetry. induction m as [|x m IH]; [reflexivity|]. cbn [filter].
    destruct (beqb (fst x) (fst e)) eqn:X; cbn [negb]; [exact IH|]. cbn [find]. now rewrite X.
  - assert (X : find (fun x => beqb (fst x) k) (filter (fun x => negb (beqb (fst x) (fst e))) m) = find (fun x => beqb (fst x) k) m).
    { induction m as [|x m IH]; [reflexivity|]. cbn [filter find]. destruct (beqb (fst x) (fst e)) eqn:X; cbn [negb].
      - apply beqb_eq in X. replace (beqb (fst x) k) with false by (rewrite X; now symmetry). exact IH.
      - cbn [find]. destruct (beqb (fst x) k); [reflexivity|exact IH]. }
    rewrite X. now destruct (find _ m).
Qed.

Section Tok.
  Variable lower : bytes -> bytes.
  Lemma open_attrs : forall attrs m k, Forall (fun a => a_key a <> [] /\ a_val a <> [] /\ quote_ok (a_quote a) /\
                   ~ In space (a_key a) /\ ~ In space (a_val a) /\ ~ In 61 (a_key a) /\ ~ In 34 (a_val a) /\ ~ In 39 (a_val a)) attrs ->
    agets k (fold_left (fun m p => fold_left (fun m a => set_attr m (lower (fst a), snd a)) (find_attrs (S (length p)) p) m) (map part attrs) m)
    = match value_of lower k attrs with Some v => Some v | None => agets k m end.
  Proof.
    induction attrs as [|a attrs IH]; intros m k H; [reflexivity|]. inversion H as [|? ? Ha Hr]; subst. destruct Ha as (A1 & A2 & A3 & A4 & A5 & A6 & A7 & A8).
    cbn [map fold_left value_of]. rewrite IH by exact Hr. rewrite find_attrs_part by assumption. cbn [fold_left fst snd].
    destruct (value_of lower k attrs); [reflexivity|]. rewrite agets_set. cbn [fst snd]. now destruct (beqb _ k).
  Qed.
  Lemma open_tag_ok b : (forall n, b <> 47 :: n) -> token_of lower (Tag b) (open_tag lower b).
  Proof.
    intros Hb. unfold open_tag. destruct (split_on_acc b []) as (_ & ws & E & _). rewrite E. cbn [rev app]. apply tk_open; [exact Hb|].
    intros name attrs P -> k. rewrite split_tag in E by exact P. injection E as _ <-. destruct P as [_ P]. change (agets k (fold_left (fun m p => fold_left (fun m a => set_attr m (lower (fst a), snd a)) (find_attrs (S (length p)) p) m) (map part attrs) []) = value_of lower k attrs).
    rewrite open_attrs by exact P. now destruct (value_of lower k attrs).
  Qed.
  Lemma main : forall fuel pre r, (length r < fuel)%nat ->
    let s := pre ++ r in
    exists ps l pos tl,
      cut r ps /\ (find_tags fuel s (Z.of_nat (length pre)) = [] -> ps = [Text r]) /\
      tag_loop lower s (Z.of_nat (length pre)) (find_tags fuel s (Z.of_nat (length pre))) = Ret (l, pos) /\
      slice s pos (Z.of_nat (length s)) = Some tl /\ (pos <? Z.of_nat (length s)) = (match tl with [] => false | _ => true end) /\
      Forall2 (token_of lower) (filter nonempty ps) (l ++ match tl with [] => [] | _ => [TText tl] end).
  Proof.
    induction fuel as [|fuel IH]; intros pre r L s; [lia|]. remember (find_tags (S fuel) s (Z.of_nat (length pre))) as FT eqn:EF. cbn [find_tags] in EF. unfold index_from in EF. unfold s in EF at 1. rewrite skipn_pre in EF.
    assert (Done : (forall a b c, r <> a ++ [lt_] ++ b ++ [gt_] ++ c) -> exists ps l pos tl,
      cut r ps /\ (@nil (Z * Z) = [] -> ps = [Text r]) /\ tag_loop lower s (Z.of_nat (length pre)) [] = Ret (l, pos) /\
      slice s pos (Z.of_nat (length s)) = Some tl /\ (pos <? Z.of_nat (length s)) = (match tl with [] => false | _ => true end) /\
      Forall2 (token_of lower) (filter nonempty ps) (l ++ match tl with [] => [] | _ => [TText tl] end)).
    { intros H. exists [Text r], [], (Z.of_nat (length pre)), r. split; [now constructor|]. split; [reflexivity|]. split; [reflexivity|].
      split; [unfold s; rewrite <- (app_nil_r r) at 1; apply slice_mid; [reflexivity|rewrite app_length; lia]|].
      split; [unfold s; rewrite app_length; destruct r; cbn [length]; lia|].
      destruct r; cbn; constructor; [constructor|constructor]. }
    destruct (index_byte lt_ r) as [i|] eqn:E1; cbn [option_map] in EF.
    2:{ rewrite EF. apply Done. intros a b c ->. apply index_byte_none in E1. apply E1. rewrite !in_app_iff. cbn. auto. }
    apply index_byte_some in E1 as (t & r1 & Er & Nt & ->).
    assert (Es : s = (pre ++ t ++ [lt_]) ++ r1) by (unfold s; rewrite Er, <- !app_assoc; reflexivity).
    replace (Z.of_nat (length pre) + Z.of_nat (length t) + 1) with (Z.of_nat (length (pre ++ t ++ [lt_]))) in EF by (rewrite !app_length; cbn [length]; lia).
    rewrite Es in EF at 1. rewrite skipn_pre in EF.
    destruct (index_byte gt_ r1) as [i|] eqn:E2; cbn [option_map] in EF.
    2:{ rewrite EF. apply Done. intros a b c Hc. apply index_byte_none in E2. apply E2. rewrite Er in Hc. clear - Hc Nt. revert a Hc Nt. induction t as [|x t IH]; intros a H N; destruct a as [|y a]; cbn in H.
        { injection H as ->. apply in_or_app. right. now left. }
        { injection H as _ ->. rewrite in_app_iff. right. right. rewrite in_app_iff. right. now left. }
        { injection H as -> _. exfalso. apply N. now left. }
        injection H as _ H. apply (IH a); [exact H|]. intros X. apply N. now right. }
    apply index_byte_some in E2 as (body & r2 & Er1 & Nb & ->).
    assert (Es2 : s = (pre ++ t ++ [lt_] ++ body ++ [gt_]) ++ r2) by (rewrite Es, Er1, <- !app_assoc; reflexivity).
    set (pre2 := pre ++ t ++ [lt_] ++ body ++ [gt_]) in *.
    replace (Z.of_nat (length (pre ++ t ++ [lt_])) + Z.of_nat (length body) + 1) with (Z.of_nat (length pre2)) in EF by (unfold pre2; rewrite !app_length; cbn [length]; lia).
    destruct (IH pre2 r2) as (ps & l & pos & tl & C & _ & TL & SL & PL & F).
    { rewrite Er, Er1, !app_length in L. cbn [length] in L. rewrite app_length in L. cbn [length] in L. lia. }
    rewrite <- Es2 in TL, SL, PL.
    assert (Lp2 : Z.of_nat (length pre2) = Z.of_nat (length pre) + Z.of_nat (length t) + 1 + Z.of_nat (length body) + 1) by (unfold pre2; rewrite !app_length; cbn [length]; lia).
    assert (Sb : slice s (Z.of_nat (length pre) + Z.of_nat (length t) + 1) (Z.of_nat (length pre2) - 1) = Some body).
    { rewrite Es, Er1. apply slice_mid; rewrite ?app_length; cbn [length]; lia. }
    assert (St : (if Z.of_nat (length pre) <? Z.of_nat (length pre) + Z.of_nat (length t) then option_map (fun x => [TText x]) (slice s (Z.of_nat (length pre)) (Z.of_nat (length pre) + Z.of_nat (length t))) else Some [])
                 = Some (match t with [] => [] | _ => [TText t] end)).
    { destruct t as [|x t]; [cbn [length]; replace (_ <? _) with false by lia; reflexivity|]. replace (_ <? _) with true by (cbn [length]; lia).
      unfold s. rewrite Er. rewrite slice_mid; reflexivity. }
    set (tk := match body with 47 :: n => TClose (lower n) | _ => open_tag lower body end).
    assert (Tk : token_of lower (Tag body) tk).
    { unfold tk. destruct body as [|c n]; [apply open_tag_ok; discriminate|]. destruct (Z.eq_dec c 47) as [->|N]; [constructor|].
      replace (match c with 47 => _ | _ => _ end) with (open_tag lower (c :: n)); [apply open_tag_ok; congruence|].
      destruct c as [|p|p]; try reflexivity. do 6 (destruct p as [p|p|]; try reflexivity). now exfalso. }
    assert (Hd : exists c, at_ s (Z.of_nat (length pre) + Z.of_nat (length t) + 1) = Some c /\
       (if c =? 47 then option_map (fun x => TClose (lower x)) (slice s (Z.of_nat (length pre) + Z.of_nat (length t) + 2) (Z.of_nat (length pre2) - 1))
        else option_map (open_tag lower) (slice s (Z.of_nat (length pre) + Z.of_nat (length t) + 1) (Z.of_nat (length pre2) - 1))) = Some tk).
    { destruct body as [|c n].
      - exists gt_. split; [rewrite Es, Er1; apply at_mid; rewrite !app_length; cbn [length]; lia|]. replace (gt_ =? 47) with false by reflexivity. rewrite Sb. reflexivity.
      - exists c. split; [rewrite Es, Er1; apply at_mid; rewrite !app_length; cbn [length]; lia|]. destruct (Z.eqb_spec c 47) as [->|N].
        + replace (slice s _ _) with (Some n); [reflexivity|]. symmetry. rewrite Es, Er1.
          replace ((pre ++ t ++ [lt_]) ++ (47 :: n) ++ gt_ :: r2) with ((pre ++ t ++ [lt_; 47]) ++ n ++ gt_ :: r2) by (rewrite <- !app_assoc; reflexivity).
          apply slice_mid; rewrite ?app_length; cbn [length] in *; lia.
        + rewrite Sb. cbn [option_map]. f_equal. unfold tk. destruct c as [|p|p]; try reflexivity. do 6 (destruct p as [p|p|]; try reflexivity). now exfalso. }
    destruct Hd as (c & Hat & Htk). rewrite EF.
    exists (Text t :: Tag body :: ps), (match t with [] => [] | _ => [TText t] end ++ tk :: l), pos, tl.
    split; [rewrite Er, Er1; change (t ++ lt_ :: body ++ gt_ :: r2) with (t ++ [lt_] ++ body ++ [gt_] ++ r2); now constructor|].
    split; [discriminate|].
    split; [cbn [tag_loop]; rewrite St, Hat, Htk, TL; reflexivity|]. split; [exact SL|]. split; [exact PL|].
    rewrite <- app_assoc. cbn [filter nonempty]. destruct t as [|x t]; cbn [app].
    - constructor; [exact Tk|exact F].
    - constructor; [constructor|]. constructor; [exact Tk|exact F].
  Qed.
  Lemma clean_eq s : replace_all [13] [] (replace_all [10] [space] s) = clean s.
  Proof.
    rewrite !replace_all_byte. unfold clean. induction s as [|c s IH]; [reflexivity|]. cbn [flat_map]. rewrite flat_map_app, IH. f_equal.
    rewrite (Z.eqb_sym 10 c). destruct (Z.eqb_spec c 10) as [->|N]; [reflexivity|]. cbn [flat_map]. rewrite (Z.eqb_sym 13 c), app_nil_r. reflexivity.
  Qed.
End Tok.

(** ** C43 *)
(** The text outside tags is kept in order, each tag gives one token, and there
    are no other tokens; the attributes are those written, when they are plain. *)
Theorem C43_tokens_partial : forall (lower : bytes -> bytes) (s : bytes), exists ps toks,
  cut (clean s) ps /\ tokenize lower s = Ret toks /\
  ((ps = [Text (clean s)] /\ toks = [TText (clean s)]) \/ Forall2 (token_of lower) (filter nonempty ps) toks).
Proof.
  intros lower s. unfold tokenize. rewrite clean_eq. set (c := clean s).
  destruct (main lower (S (length c)) [] c (Nat.lt_succ_diag_r _)) as (ps & l & pos & tl & C & N & TL & SL & PL & F).
  cbn [app length] in *. change (Z.of_nat 0) with 0 in *. exists ps. destruct (find_tags (S (length c)) c 0) as [|cap caps] eqn:E.
  - exists [TText c]. split; [exact C|]. split; [reflexivity|]. left. split; [now apply N|reflexivity].
  - eexists. split; [exact C|]. split; [|right; exact F]. rewrite TL. cbn [obind]. rewrite PL, SL. destruct tl; [now rewrite app_nil_r|reflexivity].
Qed.
Print Assumptions C43_tokens_partial.
(** cutting a string loses nothing and is done in one way *)
Lemma cut_written s ps : cut s ps -> flat_map written ps = s.
Proof. induction 1 as [s _|t b r ps _ _ _ IH]; cbn [flat_map written app]; [apply app_nil_r|]. rewrite IH, <- !app_assoc. reflexivity. Qed.
Theorem C43_cut : forall s ps, cut s ps -> flat_map written ps = s /\ forall ps', cut s ps' -> ps' = ps.
Proof.
  intros s ps H. split; [now apply cut_written|]. induction H as [s Hs|t b r ps Nt Nb H IH]; intros ps' H'.
  - inversion H'; subst; [reflexivity|]. exfalso. eapply Hs. reflexivity.
  - inversion H' as [? Hs|t' b' r' ps0 Nt' Nb' H0 E]; subst; [exfalso; eapply Hs; reflexivity|].
    assert (First : forall (c : Z) u u' v v', ~ In c u -> ~ In c u' -> u ++ c :: v = u' ++ c :: v' -> u = u' /\ v = v').
    { clear. intros c. induction u as [|x u IHu]; intros [|y u'] v v' N N' E; cbn in E.
      - injection E as ->. auto.
      - injection E as -> _. exfalso. apply N'. now left.
      - injection E as -> _. exfalso. apply N. now left.
      - injection E as -> E. destruct (IHu u' v v') as [-> ->]; auto; intros X; [apply N|apply N']; now right. }
    cbn [app] in E. apply First in E as [-> E]; auto. apply First in E as [-> ->]; auto. now rewrite (IH ps0 H0).
Qed.

(** An attribute whose value holds a space is cut short: the full statement,
    without the condition on spaces, is false; an empty value loses the attribute. *)
Definition any_attrs (name : bytes) (attrs : list attribute) : Prop :=
  ~ In space name /\
  Forall (fun a => a_key a <> [] /\ (a_quote a = [34] \/ a_quote a = [39]) /\
                   ~ In space (a_key a) /\ ~ In 61 (a_key a) /\ ~ In 34 (a_val a) /\ ~ In 39 (a_val a) /\ ~ In gt_ (a_val a)) attrs.
Theorem C43_attributes_refuted : exists name a b, any_attrs name [a] /\ any_attrs name [b] /\
  a_val a = bs "big red" /\ tokenize (fun s => s) ([lt_] ++ tag_text name [a] ++ [gt_]) = Ret [TOpen name [(a_key a, bs "big")]] /\
  a_val b = [] /\ tokenize (fun s => s) ([lt_] ++ tag_text name [b] ++ [gt_]) = Ret [TOpen name []].
Proof.
  exists (bs "a"), {| a_key := bs "title"; a_quote := [34]; a_val := bs "big red" |}, {| a_key := bs "title"; a_quote := [34]; a_val := [] |}.
  repeat split; try (vm_compute; reflexivity); unfold gt_, space; cbn; try (intros H; decompose [or] H; discriminate); repeat constructor; cbn; try easy; intros H; decompose [or] H; try discriminate; try contradiction.
Qed.
Print Assumptions C43_attributes_refuted.

(** ** Styles, colors, links and alignment *)
Lemma level_app name a b : level name (a ++ b) = level name a + level name b.
Proof. unfold level. induction a as [|t a IH]; cbn [app fold_right]; [lia|]. rewrite IH. lia. Qed.
Lemma pending_app : forall a h b, pending h (a ++ b) = pending (pending h a) b.
Proof. induction a as [|t a IH]; intros h b; [reflexivity|]. destruct t; cbn [app pending]; apply IH. Qed.
Lemma aligned_app : forall a h b, aligned h (a ++ b) = aligned (aligned h a) b.
Proof. induction a as [|t a IH]; intros h b; [reflexivity|]. destruct t; cbn [app aligned]; apply IH. Qed.
Lemma touched_app : forall a h b, touched h (a ++ b) = touched h a || touched (pending h a) b.
Proof.
  induction a as [|t a IH]; intros h b; [reflexivity|]. cbn [app touched]. rewrite IH, !orb_assoc. do 2 f_equal. now destruct t.
Qed.
Definition w0 : wst := {| w_b := 0; w_i := 0; w_u := 0; w_href := []; w_align := bs "L" |}.
Section Draw.
  Variables (lk : link) (st0 : bytes) (col0 : Z * Z * Z).
  Definition style_at (before : list token) : bytes :=
    if touched [] before then style (level (bs "b") before) (level (bs "i") before) (level (bs "u") before) else st0.
  Definition agrees (w : wst) (before : list token) : Prop :=
    w_b w = level (bs "b") before /\ w_i w = level (bs "i") before /\ w_u w = level (bs "u") before /\ w_href w = pending [] before /\ w_align w = aligned (bs "L") before /\
    (aligned (bs "L") before = bs "L" \/ aligned (bs "L") before = bs "C" \/ aligned (bs "L") before = bs "R").
  Lemma effect_app : forall a st c b, effect st c (a ++ b) =
    (fst (effect st c a) ++ fst (effect (fst (snd (effect st c a))) (snd (snd (effect st c a))) b), snd (effect (fst (snd (effect st c a))) (snd (snd (effect st c a))) b)).
  Proof.
    induction a as [|x a IH]; intros st c b; cbn [app effect fst snd]; [now destruct (effect st c b)|].
    destruct x; try apply IH; rewrite IH; destruct (effect st c a) as [l [f1 f2]]; cbn [fst snd]; reflexivity.
  Qed.
  Lemma style_eq b i u : (if b >? 0 then bs "B" else []) ++ (if i >? 0 then bs "I" else []) ++ (if u >? 0 then bs "U" else []) = style b i u.
  Proof. unfold style. now rewrite !Z.gtb_ltb. Qed.
  Ltac lv := unfold level; cbn [fold_right]; repeat match goal with |- context [beqb ?a ?b] => let x := eval vm_compute in (beqb a b) in change (beqb a b) with x end; cbn [negb]; lia.
  Lemma step before t w c w' : agrees w before -> write_token lk col0 t w = (c, w') ->
    agrees w' (before ++ [t]) /\ effect (style_at before) col0 c = (expected lk st0 col0 before [t], (style_at (before ++ [t]), col0)).
  Proof.
    intros (A1 & A2 & A3 & A4 & A5 & A6) E. unfold agrees. rewrite !level_app, pending_app, aligned_app. unfold style_at. rewrite touched_app, !level_app. rewrite <- A1, <- A2, <- A3, <- A4, <- A5 in *.
    assert (B1 : w_b w = level (bs "b") before) by exact A1. assert (B2 : w_i w = level (bs "i") before) by exact A2. assert (B3 : w_u w = level (bs "u") before) by exact A3.
    set (tb := touched [] before).
    destruct t as [s|s a|s]; cbn [write_token] in E.
    - assert (L : forall n, level n [TText s] = 0) by reflexivity. rewrite !L, !Z.add_0_r. cbn [pending aligned touched styling orb expected].
      unfold drawn. rewrite <- B1, <- B2, <- B3, <- A4, <- A5. destruct (w_href w) as [|h hs] eqn:Eh.
      + cbn [beqb]. fold tb. destruct A6 as [A6|[A6|A6]]; rewrite A6 in E |- *.
        * change (beqb (bs "L") (bs "C") || beqb (bs "L") (bs "R")) with false in E. cbv iota in E. injection E as <- <-. rewrite Eh. rewrite beqb_refl, orb_false_r. repeat split; auto.
        * change (beqb (bs "C") (bs "C") || beqb (bs "C") (bs "R")) with true in E. cbv iota in E. injection E as <- <-. rewrite Eh. rewrite orb_false_r. repeat split; auto.
        * change (beqb (bs "R") (bs "C") || beqb (bs "R") (bs "R")) with true in E. cbv iota in E. injection E as <- <-. rewrite Eh. rewrite orb_false_r. repeat split; auto.
      + unfold put_link in E. destruct col0 as [[tr tg] tb0]. cbn [set_style] in E. injection E as <- <-. cbn [w_b w_i w_u w_href w_align set_href beqb negb].
        rewrite orb_true_r. fold (one (l_bold lk)) (one (l_italic lk)) (one (l_under lk)). rewrite !style_eq.
        replace (w_b w + one (l_bold lk) + - one (l_bold lk)) with (w_b w) by lia. replace (w_i w + one (l_italic lk) + - one (l_italic lk)) with (w_i w) by lia. replace (w_u w + one (l_under lk) + - one (l_under lk)) with (w_u w) by lia.
        repeat split; auto.
    - Ltac br E H := match type of E with context [beqb ?s ?x] => destruct (beqb s x) eqn:H; [apply beqb_eq in H; subst s|] end.
      br E H1; [injection E as <- <-; cbn [w_b w_i w_u w_href w_align]; rewrite style_eq; repeat split; try lv; auto; cbn; rewrite ?orb_true_r; cbn; f_equal; f_equal; f_equal; lv|].
      br E H2; [injection E as <- <-; cbn [w_b w_i w_u w_href w_align]; rewrite style_eq; repeat split; try lv; auto; cbn; rewrite ?orb_true_r; cbn; f_equal; f_equal; f_equal; lv|].
      br E H3; [injection E as <- <-; cbn [w_b w_i w_u w_href w_align]; rewrite style_eq; repeat split; try lv; auto; cbn; rewrite ?orb_true_r; cbn; f_equal; f_equal; f_equal; lv|].
      assert (L : level (bs "b") [TOpen s a] = 0 /\ level (bs "i") [TOpen s a] = 0 /\ level (bs "u") [TOpen s a] = 0) by (unfold level; cbn [fold_right]; rewrite H1, H2, H3; auto).
      destruct L as (-> & -> & ->). rewrite !Z.add_0_r. cbn [touched styling pending aligned expected]. rewrite H1, H2, H3. cbn [orb]. rewrite orb_false_r. fold tb.
      br E H4; [injection E as <- <-; repeat split; auto|].
      br E H5; [injection E as <- <-; repeat split; auto|].
      br E H6; [injection E as <- <-; repeat split; auto|].
      br E H7; [injection E as <- <-; repeat split; auto|].
      br E H8; [injection E as <- <-; repeat split; auto|]. injection E as <- <-. repeat split; auto.
    - br E H1; [injection E as <- <-; cbn [w_b w_i w_u w_href w_align]; rewrite style_eq; repeat split; try lv; auto; cbn; rewrite ?orb_true_r; cbn; f_equal; f_equal; f_equal; lv|].
      br E H2; [injection E as <- <-; cbn [w_b w_i w_u w_href w_align]; rewrite style_eq; repeat split; try lv; auto; cbn; rewrite ?orb_true_r; cbn; f_equal; f_equal; f_equal; lv|].
      br E H3; [injection E as <- <-; cbn [w_b w_i w_u w_href w_align]; rewrite style_eq; repeat split; try lv; auto; cbn; rewrite ?orb_true_r; cbn; f_equal; f_equal; f_equal; lv|].
      assert (L : level (bs "b") [TClose s] = 0 /\ level (bs "i") [TClose s] = 0 /\ level (bs "u") [TClose s] = 0) by (unfold level; cbn [fold_right]; rewrite H1, H2, H3; auto).
      destruct L as (-> & -> & ->). rewrite !Z.add_0_r. cbn [touched styling pending aligned expected]. rewrite H1, H2, H3. cbn [orb]. rewrite orb_false_r. fold tb.
      br E H5; [injection E as <- <-; repeat split; auto|].
      br E H6; [injection E as <- <-; repeat split; auto|]. injection E as <- <-. repeat split; auto.
  Qed.
End Draw.

Lemma write_all lk st0 col0 : forall ts before w, agrees w before ->
  effect (style_at st0 before) col0 (write_tokens lk col0 ts w) = (expected lk st0 col0 before ts, (style_at st0 (before ++ ts), col0)).
Proof.
  induction ts as [|t ts IH]; intros before w A; cbn [write_tokens].
  - rewrite app_nil_r. reflexivity.
  - destruct (write_token lk col0 t w) as [c w'] eqn:E. destruct (step lk st0 col0 before t w c w' A E) as [A' Ef].
    rewrite effect_app, Ef. cbn [fst snd]. rewrite (IH _ _ A'). cbn [fst snd]. rewrite <- app_assoc. cbn [app]. f_equal. destruct t; reflexivity.
Qed.
Theorem C43_drawing : forall lower lk st0 col0 html, exists toks cs,
  tokenize lower html = Ret toks /\ html_write lower lk col0 html = Ret cs /\ effect st0 col0 cs = (expected lk st0 col0 [] toks,
    ((if touched [] toks then style (level (bs "b") toks) (level (bs "i") toks) (level (bs "u") toks) else st0), col0)).
Proof.
  intros lower lk st0 col0 html. destruct (C43_tokens_partial lower html) as (ps & toks & _ & E & _). exists toks. eexists. split; [exact E|]. unfold html_write. rewrite E. cbn [obind].
  split; [reflexivity|]. exact (write_all lk st0 col0 toks [] w0 ltac:(repeat split; auto)).
Qed.
Print Assumptions C43_drawing.
(** every text is drawn, once and in order *)
Theorem C43_text_drawn : forall lk st0 col0 toks before,
  map sh_text (expected lk st0 col0 before toks) = flat_map (fun t => match t with TText s => [s] | _ => [] end) toks.
Proof.
  intros lk st0 col0. induction toks as [|t toks IH]; intros before; [reflexivity|]. destruct t; cbn [expected map flat_map app]; rewrite IH; [|reflexivity|reflexivity].
  f_equal. unfold drawn. now destruct (beqb _ []).
Qed.
(** After balanced tags the style is the regular one... *)
Theorem C43_balanced_partial : forall lower lk st0 col0 html toks cs,
  tokenize lower html = Ret toks -> html_write lower lk col0 html = Ret cs ->
  level (bs "b") toks = 0 -> level (bs "i") toks = 0 -> level (bs "u") toks = 0 ->
  snd (effect st0 col0 cs) = ((if touched [] toks then [] else st0), col0).
Proof.
  intros lower lk st0 col0 html toks cs E1 E2 B I U. destruct (C43_drawing lower lk st0 col0 html) as (toks' & cs' & F1 & F2 & F3).
  assert (toks' = toks) by congruence. assert (cs' = cs) by congruence. subst. rewrite F3. cbn [snd]. now rewrite B, I, U.
Qed.
(** ... not the one the document had before: bold text after a balanced pair of
    tags is no longer bold. *)
Theorem C43_style_restored_refuted : exists lower lk st0 col0 html toks cs,
  tokenize lower html = Ret toks /\ html_write lower lk col0 html = Ret cs /\
  level (bs "b") toks = 0 /\ level (bs "i") toks = 0 /\ level (bs "u") toks = 0 /\
  st0 = bs "B" /\ map (fun x => (sh_text x, sh_style x)) (fst (effect st0 col0 cs)) = [(bs "one", bs "B"); (bs "two", bs "I"); (bs "three", [])].
Proof.
  exists (fun s => s), {| l_r := 0; l_g := 0; l_b := 128; l_bold := false; l_italic := false; l_under := true |}, (bs "B"), (0, 0, 0),
    (bs "one" ++ [lt_] ++ bs "i" ++ [gt_] ++ bs "two" ++ [lt_] ++ bs "/i" ++ [gt_] ++ bs "three").
  eexists. eexists. split; [vm_compute; reflexivity|]. split; [vm_compute; reflexivity|]. repeat split; vm_compute; reflexivity.
Qed.
Print Assumptions C43_style_restored_refuted.

(** a string with text, tags and a link *)
Definition html_ex : bytes := bs "see <b>the <a href='x.org' id=""k"">link</a></b> <".
Example C43_tokens_ex : tokenize (fun s => s) html_ex =
  Ret [TText (bs "see "); TOpen (bs "b") []; TText (bs "the "); TOpen (bs "a") [(bs "href", bs "x.org"); (bs "id", bs "k")]; TText (bs "link"); TClose (bs "a"); TClose (bs "b"); TText (bs " <")].
Proof. vm_compute. reflexivity. Qed.
Example C43_plain_ex : exists attrs, plain (bs "a") attrs /\ bs "a href='x.org' id=""k""" = tag_text (bs "a") attrs.
Proof.
  exists [{| a_key := bs "href"; a_quote := [39]; a_val := bs "x.org" |}; {| a_key := bs "id"; a_quote := [34]; a_val := bs "k" |}].
  split; [|reflexivity]. split; [cbn; unfold space; lia|]. constructor; [|constructor; [|constructor]]; cbn; unfold quote_ok, space; repeat split; try discriminate; auto; lia.
Qed.
Example C43_drawing_ex : exists cs, html_write (fun s => s) {| l_r := 0; l_g := 0; l_b := 128; l_bold := false; l_italic := false; l_under := true |} (9, 9, 9) html_ex = Ret cs /\
  map (fun x => (sh_text x, sh_style x, sh_color x, sh_url x)) (fst (effect [] (9, 9, 9) cs)) =
    [(bs "see ", [], (9, 9, 9), None); (bs "the ", bs "B", (9, 9, 9), None); (bs "link", bs "BU", (0, 0, 128), Some (bs "x.org")); (bs " <", [], (9, 9, 9), None)].
Proof. eexists. split; vm_compute; reflexivity. Qed.
