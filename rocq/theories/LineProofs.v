From Verif Require Import Base TextModel LineModel LineSpec.

(** * List and index lemmas *)
Lemma at_app_r {A} (a b : list A) k :
  0 <= k -> at_ (a ++ b) (Z.of_nat (length a) + k) = at_ b k.
Proof.
  intros H. unfold at_. replace (_ <? 0) with false by lia. replace (k <? 0) with false by lia.
  rewrite nth_error_app2 by lia. f_equal. lia.
Qed.

Lemma at_mid {A} (a : list A) c b i : i = Z.of_nat (length a) -> at_ (a ++ c :: b) i = Some c.
Proof. intros ->. replace (Z.of_nat (length a)) with (Z.of_nat (length a) + 0) by lia. rewrite at_app_r by lia. reflexivity. Qed.

Lemma slice_mid {A} (a b c : list A) i j :
  i = Z.of_nat (length a) -> j = Z.of_nat (length a) + Z.of_nat (length b) ->
  slice (a ++ b ++ c) i j = Some b.
Proof.
  intros -> ->. unfold slice. rewrite !app_length.
  replace (_ && _ && _) with true by lia.
  rewrite skipn_app. replace (Z.to_nat (Z.of_nat (length a))) with (length a) by lia.
  rewrite skipn_all, Nat.sub_diag. cbn [app skipn].
  replace (Z.to_nat _) with (length b) by lia.
  rewrite firstn_app, Nat.sub_diag, firstn_all. cbn [firstn]. now rewrite app_nil_r.
Qed.

Lemma slice_eq {A} (s a b c : list A) i j :
  s = a ++ b ++ c -> i = Z.of_nat (length a) -> j = Z.of_nat (length a) + Z.of_nat (length b) ->
  slice s i j = Some b.
Proof. intros -> Hi Hj. now apply slice_mid. Qed.

Lemma width_app wd a b : width wd (a ++ b) = width wd a + width wd b.
Proof. unfold width. induction a as [|x a IH]; simpl; lia. Qed.

Lemma fits_snoc wd wmax p c : fits wd wmax p -> width wd (p ++ [c]) <= wmax -> fits wd wmax (p ++ [c]).
Proof.
  intros Hf Hw a b E Ha. destruct b as [|x b] using rev_ind.
  - rewrite app_nil_r in E. now subst a.
  - clear IHb. rewrite app_assoc in E. apply app_inj_tail in E as [E _]. eapply Hf; eauto.
Qed.

Lemma fits_prefix wd wmax p q : fits wd wmax (p ++ q) -> fits wd wmax p.
Proof. intros H a b -> Ha. apply (H a (b ++ q)); [now rewrite app_assoc|exact Ha]. Qed.

Lemma fits_nil wd wmax : fits wd wmax [].
Proof. intros [|] b E Ha; [easy|discriminate]. Qed.

Lemma fits_ext wd wd' wmax p : (forall c, In c p -> wd c = wd' c) -> fits wd wmax p -> fits wd' wmax p.
Proof.
  intros He H a b -> Ha. replace (width wd' a) with (width wd a); [now apply (H a b)|].
  unfold width. clear Ha H. assert (Hin : forall c, In c a -> wd c = wd' c) by (intros; apply He, in_or_app; now left).
  clear He. induction a as [|x a IH]; [reflexivity|]. simpl. rewrite IH, (Hin x); auto with datatypes.
Qed.

(** Last separator of the current line *)
Inductive last_sep (sep : Z -> bool) (cur : list Z) : option nat -> Prop :=
| ls_none : no_sep sep cur -> last_sep sep cur None
| ls_some a c w : cur = a ++ c :: w -> sep c = true -> no_sep sep w -> last_sep sep cur (Some (length a)).

Definition sep_code (j : Z) (o : option nat) : Z :=
  match o with None => -1 | Some k => j + Z.of_nat k end.

Lemma last_sep_snoc sep cur o c :
  last_sep sep cur o -> last_sep sep (cur ++ [c]) (if sep c then Some (length cur) else o).
Proof.
  intros H. destruct (sep c) eqn:E.
  - apply (ls_some _ _ cur c []); [reflexivity|exact E|constructor].
  - destruct H as [H|a x w -> Hx Hw].
    + apply ls_none. unfold no_sep in *. apply Forall_app. auto.
    + rewrite <- app_assoc. apply (ls_some _ _ a x (w ++ [c])); [reflexivity|exact Hx|].
      unfold no_sep in *. apply Forall_app. auto.
Qed.

Lemma removelast_snoc {A} (l : list A) x : removelast (l ++ [x]) = l.
Proof. rewrite removelast_app by discriminate. simpl. apply app_nil_r. Qed.

Lemma no_nl_snoc p c : no_nl p -> c <> 10 -> no_nl (p ++ [c]).
Proof. intros H Hc Hin. apply in_app_or in Hin as [Hin|[Hin|[]]]; auto. Qed.
Lemma no_nl_app p q : no_nl (p ++ q) <-> no_nl p /\ no_nl q.
Proof. unfold no_nl. rewrite in_app_iff. tauto. Qed.

(** * The loop of SplitLines / SplitText *)
Section Loop.
  Variable sep : Z -> bool.
  Variable cw : list Z.
  Variable wmax : Z.
  Variable s : list Z.
  Hypothesis sep_nl : sep 10 = true.

  Definition wd (c : Z) : Z := match at_ cw c with Some w => w | None => 0 end.
  Definition covered (t : list Z) : Prop := Forall (fun c => at_ cw c <> None) t.
  Hypothesis cov : covered s.

  Let n := length s.

  (** what the caller sees: closed lines then the open one if non-empty *)
  Definition close (ls : list (list Z)) (z : list Z) : list (list Z) :=
    match z with [] => ls | _ => ls ++ [z] end.

  Lemma loop_greedy fuel : forall pre cur post lines o,
    s = pre ++ cur ++ post ->
    no_nl cur -> fits wd wmax cur -> last_sep sep cur o ->
    (length (cur ++ post) * S n + length post < fuel)%nat ->
    exists ls z, greedy sep wd wmax (cur ++ post) ls z /\
      split_loop sep cw wmax s fuel (Z.of_nat (length (pre ++ cur))) (Z.of_nat (length pre))
                 (sep_code (Z.of_nat (length pre)) o) (width wd cur) lines
      = Ret (lines ++ close ls z).
  Proof.
    induction fuel as [|fuel IH]; intros pre cur post lines o Es Hnl Hf Hls Hfuel; [lia|].
    assert (Hn : n = (length pre + length cur + length post)%nat).
    { unfold n. rewrite Es, !app_length. lia. }
    cbn [split_loop]. fold n.
    destruct post as [|c post].
    - (* end of text *)
      rewrite app_nil_r in *.
      replace (Z.of_nat (length (pre ++ cur)) <? Z.of_nat n) with false
        by (rewrite app_length; simpl in *; lia).
      exists [], cur. split; [now constructor|].
      destruct cur as [|x cur].
      + rewrite app_nil_r, Z.eqb_refl. cbn [close]. now rewrite app_nil_r.
      + replace (_ =? _) with false by (rewrite app_length; simpl; lia).
        assert (Hsl : slice s (Z.of_nat (length pre)) (Z.of_nat (length (pre ++ x :: cur))) = Some (x :: cur)).
        { replace s with (pre ++ (x :: cur) ++ []) by (rewrite app_nil_r; now symmetry).
          apply slice_mid; [reflexivity|rewrite app_length; lia]. }
        rewrite Hsl. reflexivity.
    - (* character c *)
      replace (Z.of_nat (length (pre ++ cur)) <? Z.of_nat n) with true
        by (rewrite app_length; simpl in *; lia).
      assert (Hat : at_ s (Z.of_nat (length (pre ++ cur))) = Some c).
      { rewrite Es, app_assoc. now apply at_mid. }
      rewrite Hat.
      assert (Hc : at_ cw c <> None).
      { unfold covered in cov. rewrite Forall_forall in cov. apply cov. rewrite Es. apply in_or_app. right.
        apply in_or_app. right. now left. }
      destruct (at_ cw c) as [wc|] eqn:Ewc; [|congruence].
      assert (Hwd : wd c = wc) by (unfold wd; now rewrite Ewc).
      pose proof (last_sep_snoc sep cur o c Hls) as Hls'.
      assert (Hw : width wd cur + wc = width wd (cur ++ [c])).
      { rewrite width_app, <- Hwd. unfold width. simpl. lia. }
      rewrite Hw.
      remember (if sep c then Some (length cur) else o) as o' eqn:Eo'.
      assert (Hsep : (if sep c then Z.of_nat (length (pre ++ cur)) else sep_code (Z.of_nat (length pre)) o)
                     = sep_code (Z.of_nat (length pre)) o').
      { rewrite Eo'. destruct (sep c); [|reflexivity]. cbn [sep_code]. rewrite app_length. lia. }
      cbv zeta. rewrite Hsep. clear Hsep.
      destruct (c =? 10) eqn:Enl.
      + (* newline *)
        apply Z.eqb_eq in Enl. subst c. cbn [orb].
        assert (Ho' : o' = Some (length cur)) by (rewrite Eo'; now rewrite sep_nl).
        rewrite Ho'. cbn [sep_code].
        replace (Z.of_nat (length pre) + Z.of_nat (length cur) =? -1) with false by lia.
        rewrite (slice_eq s pre cur (10 :: post)) by (try exact Es; lia).
        specialize (IH (pre ++ cur ++ [10]) [] post (lines ++ [cur]) None).
        destruct IH as (ls & z & Hg & Hrun).
        * rewrite Es, <- !app_assoc. reflexivity.
        * intros [].
        * apply fits_nil.
        * apply ls_none. constructor.
        * cbn [app]. rewrite app_length in Hfuel. cbn [length] in Hfuel. cbn [length]. nia.
        * cbn [app] in Hg. exists (cur :: ls), z. split; [now constructor|].
          cbn [app sep_code] in Hrun. rewrite app_nil_r in Hrun.
          replace (Z.of_nat (length pre) + Z.of_nat (length cur) + 1)
            with (Z.of_nat (length (pre ++ cur ++ [10]))) by (rewrite !app_length; simpl; lia).
          change (width wd []) with 0 in Hrun. rewrite Hrun. f_equal. rewrite <- app_assoc. f_equal.
          destruct z; reflexivity.
      + apply Z.eqb_neq in Enl. cbn [orb].
        destruct (wmax <? width wd (cur ++ [c])) eqn:Eov.
        * (* overflow *)
          apply Z.ltb_lt in Eov. inversion Hls' as [Hno Eo|a x w Ecur Hx Hwns Eo]; cbn [sep_code].
          -- (* no separator *)
             replace (-1 =? -1) with true by reflexivity.
             destruct cur as [|y cur].
             ++ (* single char *)
                rewrite app_nil_r, Z.eqb_refl.
                rewrite (slice_eq s pre [c] post) by (try exact Es; simpl; lia).
                specialize (IH (pre ++ [c]) [] post (lines ++ [[c]]) None).
                destruct IH as (ls & z & Hg & Hrun).
                { rewrite Es, <- !app_assoc. reflexivity. }
                { intros []. }
                { apply fits_nil. }
                { apply ls_none. constructor. }
                { cbn [app length] in *. nia. }
                exists ([c] :: ls), z. split.
                { cbn [app] in *. apply g_char; auto; [now inversion Hno|].
                  unfold width in Eov. simpl in Eov. lia. }
                cbn [app sep_code] in Hrun. rewrite app_nil_r in Hrun.
                replace (Z.of_nat (length pre) + 1) with (Z.of_nat (length (pre ++ [c]))) by (rewrite app_length; simpl; lia).
                change (width wd []) with 0 in Hrun. rewrite Hrun. f_equal. rewrite <- app_assoc. f_equal.
                destruct z; reflexivity.
             ++ (* break before c *)
                replace (Z.of_nat (length (pre ++ y :: cur)) =? Z.of_nat (length pre)) with false
                  by (rewrite app_length; simpl; lia).
                rewrite (slice_eq s pre (y :: cur) (c :: post)) by (try exact Es; rewrite ?app_length; lia).
                specialize (IH (pre ++ y :: cur) [] (c :: post) (lines ++ [y :: cur]) None).
                destruct IH as (ls & z & Hg & Hrun).
                { rewrite Es, <- !app_assoc. reflexivity. }
                { intros []. }
                { apply fits_nil. }
                { apply ls_none. constructor. }
                { rewrite app_length in Hfuel. cbn [app length] in *. nia. }
                exists ((y :: cur) :: ls), z. split.
                { apply g_word; auto; [discriminate|].
                  apply no_nl_snoc; auto. }
                cbn [app sep_code] in Hrun. rewrite app_nil_r in Hrun.
                change (width wd []) with 0 in Hrun. rewrite Hrun. f_equal. rewrite <- app_assoc. f_equal.
                destruct z; reflexivity.
          -- (* separator at a *)
             replace (Z.of_nat (length pre) + Z.of_nat (length a) =? -1) with false by lia.
             assert (Es2 : s = pre ++ a ++ x :: w ++ post).
             { rewrite Es. f_equal. change (c :: post) with ([c] ++ post).
               rewrite app_assoc, Ecur, <- app_assoc. reflexivity. }
             rewrite (slice_eq s pre a (x :: w ++ post)) by (try exact Es2; lia).
             specialize (IH (pre ++ a ++ [x]) [] (w ++ post) (lines ++ [a]) None).
             assert (Hlen : (length cur + 1 = length a + S (length w))%nat).
             { apply (f_equal (@length Z)) in Ecur. rewrite !app_length in Ecur. simpl in Ecur. lia. }
             destruct IH as (ls & z & Hg & Hrun).
             { rewrite Es2, <- !app_assoc. reflexivity. }
             { intros []. }
             { apply fits_nil. }
             { apply ls_none. constructor. }
             { rewrite app_length in Hfuel. cbn [app]. rewrite !app_length. cbn [length] in *. nia. }
             exists (a :: ls), z. split.
             { replace (cur ++ c :: post) with (a ++ x :: w ++ post).
               2:{ change (c :: post) with ([c] ++ post). rewrite (app_assoc cur), Ecur, <- app_assoc. reflexivity. }
               apply g_sep; auto.
               - rewrite <- Ecur. apply no_nl_snoc; auto.
               - rewrite <- Ecur, removelast_snoc. exact Hf.
               - rewrite <- Ecur. exact Eov. }
             cbn [app sep_code] in Hrun. rewrite app_nil_r in Hrun.
             replace (Z.of_nat (length pre) + Z.of_nat (length a) + 1)
               with (Z.of_nat (length (pre ++ a ++ [x]))) by (rewrite !app_length; simpl; lia).
             change (width wd []) with 0 in Hrun. rewrite Hrun. f_equal. rewrite <- app_assoc. f_equal.
             destruct z; reflexivity.
        * (* step *)
          apply Z.ltb_ge in Eov.
          specialize (IH pre (cur ++ [c]) post lines o').
          destruct IH as (ls & z & Hg & Hrun).
          { rewrite Es, <- app_assoc. reflexivity. }
          { now apply no_nl_snoc. }
          { now apply fits_snoc. }
          { exact Hls'. }
          { rewrite <- app_assoc. rewrite !app_length in *. cbn [app length] in *. lia. }
          exists ls, z. split; [now rewrite <- app_assoc in Hg|].
          replace (Z.of_nat (length (pre ++ cur)) + 1) with (Z.of_nat (length (pre ++ cur ++ [c])))
            by (rewrite !app_length; simpl; lia).
          exact Hrun.
  Qed.

  Lemma split_run_greedy :
    exists ls z, greedy sep wd wmax s ls z /\ split_run sep cw wmax s = Ret (close ls z).
  Proof.
    destruct (loop_greedy (split_fuel s) [] [] s [] None) as (ls & z & Hg & Hrun).
    - reflexivity.
    - intros [].
    - apply fits_nil.
    - apply ls_none. constructor.
    - cbn [app]. unfold split_fuel, n. nia.
    - exists ls, z. split; [exact Hg|]. exact Hrun.
  Qed.
End Loop.

(** * Consequences of the greedy relation *)
Lemma fits_width wd wmax p : fits wd wmax p -> width wd p <= Z.max 0 wmax.
Proof.
  intros H. destruct p as [|c p]; [unfold width; simpl; lia|].
  specialize (H (c :: p) [] (eq_sym (app_nil_r _))). lapply H; [lia|discriminate].
Qed.

Lemma greedy_widths sep wd wmax t ls z : greedy sep wd wmax t ls z ->
  Forall (fun ln => width wd ln <= Z.max 0 wmax \/ length ln = 1%nat) ls /\ fits wd wmax z.
Proof.
  induction 1 as [t Hn Hf|line rest ls z Hn Hf Hg [IH1 IH2]|line c word rest ls z Hc Hw Hn Hf Ho Hg [IH1 IH2]
                 |line d rest ls z Hne Hs Hn Hf Ho Hg [IH1 IH2]|d rest ls z Hs Hn Ho Hg [IH1 IH2]].
  - split; [constructor|exact Hf].
  - split; [|exact IH2]. constructor; [left; now apply fits_width|exact IH1].
  - split; [|exact IH2]. constructor; [left|exact IH1]. apply fits_width.
    rewrite removelast_app in Hf by discriminate. now apply fits_prefix in Hf.
  - split; [|exact IH2]. constructor; [left; now apply fits_width|exact IH1].
  - split; [|exact IH2]. constructor; [now right|exact IH1].
Qed.

Lemma greedy_no_nl sep wd wmax t ls z : greedy sep wd wmax t ls z ->
  Forall no_nl ls /\ no_nl z.
Proof.
  induction 1 as [t Hn Hf|line rest ls z Hn Hf Hg [IH1 IH2]|line c word rest ls z Hc Hw Hn Hf Ho Hg [IH1 IH2]
                 |line d rest ls z Hne Hs Hn Hf Ho Hg [IH1 IH2]|d rest ls z Hs Hn Ho Hg [IH1 IH2]];
  (split; [|assumption]); try constructor; auto.
  - now apply no_nl_app in Hn.
  - now apply no_nl_app in Hn.
  - intros [Hd|[]]. congruence.
Qed.

(** The text is reassembled from the lines; what is dropped at a break is one
    separator or newline; nothing is dropped only inside a word. *)
Lemma greedy_reassemble sep wd wmax t ls z : greedy sep wd wmax t ls z ->
  exists bs, length bs = length ls /\ t = reassemble (combine ls bs) z
    /\ Forall2 (fun ln b => match b with
                            | Some c => c = 10 \/ sep c = true
                            | None => no_sep sep ln end) ls bs.
Proof.
  induction 1 as [t Hn Hf|line rest ls z Hn Hf Hg IH|line c word rest ls z Hc Hw Hn Hf Ho Hg IH
                 |line d rest ls z Hne Hs Hn Hf Ho Hg IH|d rest ls z Hs Hn Ho Hg IH].
  - exists []. repeat split. constructor.
  - destruct IH as (bs & Hl & -> & HF). exists (Some 10 :: bs). simpl. rewrite Hl. repeat split.
    constructor; auto.
  - destruct IH as (bs & Hl & E & HF). exists (Some c :: bs). simpl. rewrite Hl, E. repeat split.
    constructor; auto.
  - destruct IH as (bs & Hl & E & HF). exists (None :: bs). simpl. rewrite Hl, E. repeat split.
    constructor; auto. unfold no_sep in *. now apply Forall_app in Hs.
  - destruct IH as (bs & Hl & E & HF). exists (None :: bs). simpl. rewrite Hl, E. repeat split.
    constructor; auto. now constructor.
Qed.

(** greedy is total and deterministic: a complete description of the result *)
Lemma app_eq_app_cases {A} (a b c d : list A) : a ++ b = c ++ d ->
  (exists x, a = c ++ x /\ d = x ++ b) \/ (exists x, c = a ++ x /\ b = x ++ d).
Proof.
  revert c. induction a as [|x a IH]; intros c E.
  - right. exists c. now split.
  - destruct c as [|y c].
    + left. exists (x :: a). now split.
    + injection E as -> E. destruct (IH c E) as [(u & -> & ->)|(u & -> & ->)]; [left|right]; exists u; auto.
Qed.

(** trailing newlines *)
Lemma drop_nl_spec r : exists k, r = repeat 10 k ++ drop_nl r /\ (match drop_nl r with c :: _ => c <> 10 | [] => True end).
Proof.
  induction r as [|c r IH]; [now exists 0%nat|]. cbn [drop_nl].
  destruct (c =? 10) eqn:E.
  - apply Z.eqb_eq in E. subst. destruct IH as (k & E & H). exists (S k). cbn [repeat app].
    split; [|exact H]. now rewrite <- E.
  - exists 0%nat. split; [reflexivity|]. lia.
Qed.

Lemma trim_nl_spec t : exists k, t = trim_nl t ++ repeat 10 k /\ (forall p, trim_nl t <> p ++ [10]).
Proof.
  unfold trim_nl. destruct (drop_nl_spec (rev t)) as (k & E & H). exists k. split.
  - rewrite <- (rev_involutive t) at 1. rewrite E at 1. rewrite rev_app_distr. f_equal.
    clear. induction k as [|k IH]; [reflexivity|]. cbn [repeat rev]. rewrite IH.
    clear. induction k as [|k IH]; [reflexivity|]. cbn [repeat app]. now rewrite IH.
  - intros p Ep. apply (f_equal (@rev Z)) in Ep. rewrite rev_involutive, rev_app_distr in Ep. cbn in Ep.
    rewrite Ep in H. now apply H.
Qed.
