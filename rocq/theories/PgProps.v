(** C82 Page sizes, orientations and boxes. *)
From Coq Require Import Reals Lra.
From Verif Require Import Base Crypto DocModel PgModel PgSpec.
From Coq Require Import String.
Open Scope Z_scope.
Notation length := List.length.

Section Pages.
  Variable P : pnum.
  Hypothesis eqb_eq : forall a b : N P, n_eqb P a b = true <-> a = b.

  (** the default of a new document *)
  Definition asked_default (s : pst P) : request P := (negb (beqb (p_dor s) (bs "P")), p_def s).
  Definition fresh (s : pst P) : Prop :=
    p_err s = None /\ (p_dor s = bs "P" \/ p_dor s = bs "L") /\ p_cur s = p_def s /\ p_cor s = p_dor s /\
    (p_w s, p_h s) = turned (asked_default s) /\ p_wpt s = n_mul P (p_w s) (p_k s) /\ p_hpt s = n_mul P (p_h s) (p_k s) /\ p_trig s = n_sub P (p_h s) (p_bm s) /\
    p_page s = 0 /\ p_n s = 0 /\ (forall q, p_sizes s q = None) /\ (forall q t, p_boxes s q t = None) /\ (forall t, p_defboxes s t = None).

  Lemma size_ext (a b : size P) : wd a = wd b -> ht a = ht b -> a = b.
  Proof. destruct a, b. cbn. now intros -> ->. Qed.

  Record inv (s0 : pst P) (s : pst P) (v : view P) : Prop := {
    i_err : v_err v = match p_err s with Some _ => true | None => false end;
    i_n : p_n s = count v; i_at : p_page s = v_at v; i_range : 0 <= v_at v <= count v;
    i_def : p_def s = p_def s0; i_dor : p_dor s = p_dor s0; i_k : p_k s = p_k s0; i_unit : p_unit s = p_unit s0;
    i_cor : p_cor s <> [] /\ (forall c r, p_cor s = c :: r -> up1 c = p_cor s);
    i_cur : (negb (beqb (p_cor s) (bs "P")), p_cur s) = last (v_pages v) (asked_default s0);
    i_wh : (p_w s, p_h s) = turned (last (v_pages v) (asked_default s0));
    i_wpt : p_wpt s = n_mul P (p_w s) (p_k s); i_hpt : p_hpt s = n_mul P (p_h s) (p_k s); i_trig : p_trig s = n_sub P (p_h s) (p_bm s);
    i_sizes : forall q r, 1 <= q -> nth_error (v_pages v) (Z.to_nat (q - 1)) = Some r -> media q s = points (p_k s0) (turned r) ;
    i_beyond : forall q, q < 1 \/ count v < q -> p_sizes s q = None;
    i_log : forall n a k b, In (n, a, k, b) (v_log v) -> 0 <= n <= count v /\ 0 <= a <= n;
    i_deflt : forall t, p_defboxes s t = option_map (fun e => corners (p_k s0) (snd e)) (hd_error (rev (filter (fun e => beqb t (snd (fst e))) (v_log v))));
    i_boxes : forall q t, 1 <= q <= count v -> p_boxes s q t = option_map (corners (p_k s0)) (box_asked q t v) }.

  Lemma up1_P c : beqb (up1 c) (bs "P") = (c =? 80) || (c =? 112).
  Proof.
    unfold up1. change (bs "P") with [80]. destruct ((97 <=? c) && (c <=? 122)) eqn:E.
    - cbn [beqb]. rewrite andb_true_r. lia.
    - destruct (c <? 128) eqn:E2; cbn [beqb]; [rewrite andb_true_r|]; lia.
  Qed.
  Lemma up1_ne c : up1 c <> [].
  Proof. unfold up1. destruct (_ && _); [discriminate|]. destruct (c <? 128); discriminate. Qed.
  Lemma up1_idem c d r : up1 c = d :: r -> up1 d = d :: r.
  Proof.
    unfold up1 at 1. destruct ((97 <=? c) && (c <=? 122)) eqn:E; [intros [= <- <-]; unfold up1; replace ((97 <=? c - 32) && (c - 32 <=? 122)) with false by lia; replace (c - 32 <? 128) with true by lia; reflexivity|].
    destruct (c <? 128) eqn:E2; intros [= <- <-]; unfold up1; [rewrite E, E2; reflexivity|reflexivity].
  Qed.
  Lemma turned_if o (sz : size P) : turned (negb (beqb o (bs "P")), sz) = (if beqb o (bs "P") then wd sz else ht sz, if beqb o (bs "P") then ht sz else wd sz).
  Proof. unfold turned. cbn [fst snd]. now destruct (beqb o (bs "P")). Qed.

  Lemma nth_last {A} (l : list A) x : nth_error (l ++ [x]) (length l) = Some x.
  Proof. rewrite nth_error_app2 by lia. now rewrite Nat.sub_diag. Qed.
  Lemma concerns_all q t (l : list (Z * Z * bytes * box P)) : (forall n a k b, In (n, a, k, b) l -> n < q) ->
    filter (concerns P q t) l = filter (fun e => beqb t (snd (fst e))) l.
  Proof.
    intros H. apply filter_ext_in. intros [[[n a] k] b] Hin. cbn [concerns fst snd]. apply H in Hin. replace (n <? q) with true by lia. cbn. now rewrite andb_true_r.
  Qed.

  Lemma begin_inv s0 s v o o' sz : fresh s0 -> inv s0 s v -> p_err s = None ->
    o' = match o with [] => p_dor s0 | c :: _ => up1 c end ->
    inv s0 (add_page_format o sz s) (add_sheet (negb (beqb o' (bs "P")), sz) v).
  Proof.
    intros F I He Ho. pose proof (i_err _ _ _ I) as Ev. rewrite He in Ev. unfold add_page_format. rewrite He. unfold begin_page. cbn [at_page p_err p_page p_dor p_cor p_cur p_k p_def p_w p_h p_wpt p_hpt p_n p_bm p_trig p_sizes p_boxes p_defboxes].
    rewrite He. rewrite (i_dor _ _ _ I), <- Ho, (i_n _ _ _ I), (i_def _ _ _ I).
    assert (Ho' : o' <> [] /\ forall c r, o' = c :: r -> up1 c = o').
    { destruct o as [|c o]; [destruct F as (_ & [X|X] & _); rewrite Ho, X; (split; [discriminate|]); intros c r [= <- <-]; reflexivity|].
      rewrite Ho. split; [apply up1_ne|]. intros d r H. rewrite H. eapply up1_idem; exact H. }
    clear o Ho. unfold add_sheet. rewrite Ev. set (n := count v) in *.
    set (same := fun a b : size P => n_eqb P (wd a) (wd b) && n_eqb P (ht a) (ht b)).
    assert (Same : forall a b, same a b = true -> a = b).
    { intros a b H. apply andb_true_iff in H as [H1 H2]. apply eqb_eq in H1, H2. now apply size_ext. }
    assert (Er : exists r : request P, r = (negb (beqb o' (bs "P")), sz)) by (eexists; reflexivity). destruct Er as (r & Er). rewrite <- Er.
    assert (L : last (v_pages v ++ [r]) (asked_default s0) = r) by apply last_last.
    assert (Cnt : Z.of_nat (length (v_pages v ++ [r])) = n + 1) by (rewrite app_length; unfold n, count; cbn; lia).
    match goal with |- inv _ {| p_err := _; p_k := _; p_unit := _; p_std := _; p_def := _; p_cur := ?cu; p_dor := _; p_cor := ?co; p_w := ?w; p_h := ?h; p_wpt := ?wp; p_hpt := ?hp; p_bm := _; p_trig := ?tr; p_page := _; p_n := _; p_sizes := ?sz'; p_boxes := ?bo; p_defboxes := _; p_fs := _ |} _ =>
      assert (G : cu = sz /\ co = o' /\ (w, h) = turned r /\ wp = n_mul P w (p_k s) /\ hp = n_mul P h (p_k s) /\ tr = n_sub P h (p_bm s)) end.
    { fold (same sz (p_cur s)). destruct (negb (beqb o' (p_cor s)) || negb (same sz (p_cur s))) eqn:Ch.
      - repeat split. rewrite Er. symmetry. apply turned_if.
      - apply orb_false_iff in Ch as [C1 C2]. apply negb_false_iff in C1, C2. apply beqb_eq in C1. apply Same in C2. subst o'.
        assert (R : r = last (v_pages v) (asked_default s0)) by (rewrite <- (i_cur _ _ _ I); rewrite Er; now rewrite C2).
        rewrite R. repeat split; [now symmetry|apply (i_wh _ _ _ I)|apply (i_wpt _ _ _ I)|apply (i_hpt _ _ _ I)|apply (i_trig _ _ _ I)]. }
    destruct G as (G1 & G2 & G3 & G4 & G5 & G6).
    constructor; cbn [v_err v_pages v_at v_log p_err p_n p_page p_def p_dor p_k p_unit p_cor p_cur p_w p_h p_wpt p_hpt p_trig p_bm p_sizes p_boxes p_defboxes]; unfold count; cbn [v_pages]; rewrite ?Cnt.
    - reflexivity.
    - reflexivity.
    - reflexivity.
    - pose proof (i_range _ _ _ I). fold n in H. lia.
    - reflexivity.
    - reflexivity.
    - apply (i_k _ _ _ I).
    - apply (i_unit _ _ _ I).
    - rewrite G2. exact Ho'.
    - rewrite G1, G2, L. now symmetry.
    - rewrite L. exact G3.
    - exact G4.
    - exact G5.
    - exact G6.
    - intros q r' Hq Hn. unfold media. cbn [p_sizes].
      destruct (Z.eq_dec q (n + 1)) as [->|Nq].
      + replace (Z.to_nat (n + 1 - 1)) with (length (v_pages v)) in Hn by (unfold n, count; lia). rewrite nth_last in Hn. injection Hn as <-.
        fold (same sz (p_def s0)). destruct (negb (beqb o' (p_dor s0)) || negb (same sz (p_def s0))) eqn:Ch.
        * rewrite Z.eqb_refl. unfold points. rewrite <- G3. cbn [fst snd]. rewrite G4, G5. now rewrite (i_k _ _ _ I).
        * rewrite (i_beyond _ _ _ I) by (fold n; lia). apply orb_false_iff in Ch as [C1 C2]. apply negb_false_iff in C1, C2. apply beqb_eq in C1. apply Same in C2.
          rewrite Er, turned_if. rewrite C1, C2. unfold default_media, points. cbn [p_dor p_def p_k fst snd]. rewrite (i_k _ _ _ I). now destruct (beqb (p_dor s0) (bs "P")).
      + assert (Hlt : (Z.to_nat (q - 1) < length (v_pages v))%nat).
        { assert (X : (Z.to_nat (q - 1) < length (v_pages v ++ [r]))%nat) by (apply nth_error_Some; congruence). rewrite app_length in X. cbn in X. unfold n, count in *. lia. }
        rewrite nth_error_app1 in Hn by exact Hlt. pose proof (i_sizes _ _ _ I q r' Hq Hn) as X. unfold media in X.
        unfold default_media in *. cbn [p_dor p_def p_k] in *. rewrite (i_def _ _ _ I), (i_dor _ _ _ I) in X.
        destruct (negb (beqb o' (p_dor s0)) || _); [replace (q =? n + 1) with false by lia|]; exact X.
    - intros q Hq. assert (0 <= n) by (unfold n, count; lia). destruct (negb (beqb o' (p_dor s0)) || _); [replace (q =? n + 1) with false by lia|]; apply (i_beyond _ _ _ I); fold n; lia.
    - intros n' a k b Hin. apply (i_log _ _ _ I) in Hin. fold n in Hin. lia.
    - apply (i_deflt _ _ _ I).
    - intros q t Hq. destruct (Z.eqb_spec q (n + 1)) as [->|Nq].
      + rewrite (i_deflt _ _ _ I). unfold box_asked. cbn [v_log]. rewrite concerns_all.
        * now destruct (hd_error _).
        * intros n' a k b Hin. apply (i_log _ _ _ I) in Hin. fold n in Hin. lia.
      + apply (i_boxes _ _ _ I). fold n. lia.
  Qed.

  Lemma box_key_spec t kind : box_key t = Some kind <-> names_box t kind.
  Proof.
    unfold box_key, names_box, is. cbn [existsb]. rewrite !orb_false_r. set (u := lower t). clearbody u. split.
    - intros H. repeat (match type of H with (if ?b || ?c then _ else _) = _ => let Q := fresh "Q" in destruct (b || c) eqn:Q; [apply orb_true_iff in Q as [Hb|Hb]; apply beqb_eq in Hb|clear Q] end).
      all: try discriminate H.
      all: injection H as <-; refine (ex_intro _ _ (ex_intro _ _ (ex_intro _ _ (conj _ (conj _ (conj eq_refl Hb))))));
        [first [left; reflexivity|right; left; reflexivity|right; right; left; reflexivity|right; right; right; left; reflexivity]|first [left; reflexivity|right; left; reflexivity]].
    - intros (k & l & n & Hk & Hn & -> & ->). cbn in Hk. repeat (destruct Hk as [Hk|Hk]; [injection Hk as <- <-; cbn in Hn; repeat (destruct Hn as [<-|Hn]; [reflexivity|]); destruct Hn|]). destruct Hk.
  Qed.

  Lemma step_inv s0 s v c v' : fresh s0 -> inv s0 s v -> vstep (asked_default s0) v c v' -> inv s0 (pstep s c) v'.
  Proof.
    intros F I V. destruct V; cbn [pstep].
    - (* AddPage *) unfold add_page. destruct (p_err s) eqn:He.
      + unfold add_sheet. rewrite (i_err _ _ _ I), He. exact I.
      + rewrite (i_dor _ _ _ I), (i_def _ _ _ I). unfold asked_default.
        apply (begin_inv s0 s v (p_dor s0) (p_dor s0)); auto. destruct F as (_ & [X|X] & _); rewrite X; reflexivity.
    - (* AddPageFormat *) destruct (p_err s) eqn:He.
      + unfold add_sheet. rewrite (i_err _ _ _ I), He. unfold add_page_format. rewrite He. exact I.
      + pose proof (begin_inv s0 s v o (match o with [] => p_dor s0 | c :: _ => up1 c end) sz F I He eq_refl) as X.
        replace (landscape (asked_default s0) o) with (negb (beqb (match o with [] => p_dor s0 | c :: _ => up1 c end) (bs "P"))); [exact X|].
        destruct o as [|c o]; [reflexivity|]. cbn [landscape]. now rewrite up1_P.
    - (* break *) unfold break_page. destruct (p_err s) eqn:He.
      + unfold add_sheet. rewrite (i_err _ _ _ I), He. unfold add_page_format. rewrite He. exact I.
      + rewrite <- (i_cur _ _ _ I). apply begin_inv; auto. destruct (i_cor _ _ _ I) as (C1 & C2). destruct (p_cor s) as [|c r] eqn:Ec; [easy|]. symmetry. now apply (C2 c r).
    - (* SetPage *) unfold set_page. rewrite (i_n _ _ _ I).
      replace ((0 <? q) && (q <? count v + 1)) with ((1 <=? q) && (q <=? count v)) by lia.
      destruct ((1 <=? q) && (q <=? count v)) eqn:E; [|destruct v; exact I].
      destruct I. constructor; cbn [at_page v_err v_pages v_at v_log p_err p_n p_page p_def p_dor p_k p_unit p_cor p_cur p_w p_h p_wpt p_hpt p_trig p_bm p_sizes p_boxes p_defboxes]; auto; try (unfold count in *; cbn [v_pages]; lia).
    - (* AutoBreak *) destruct I. constructor; cbn [set_auto_page_break p_err p_n p_page p_def p_dor p_k p_unit p_cor p_cur p_w p_h p_wpt p_hpt p_trig p_bm p_sizes p_boxes p_defboxes]; auto.
    - (* box *) apply box_key_spec in H. unfold set_page_box. rewrite H. pose proof (i_range _ _ _ I) as Rg.
      assert (Fl : forall f, filter f (v_log v ++ [(count v, v_at v, kind, b)]) = filter f (v_log v) ++ (if f (count v, v_at v, kind, b) then [(count v, v_at v, kind, b)] else [])) by (intros f; now rewrite filter_app).
      destruct I. constructor; cbn [v_err v_pages v_at v_log p_err p_n p_page p_def p_dor p_k p_unit p_cor p_cur p_w p_h p_wpt p_hpt p_trig p_bm p_sizes p_boxes p_defboxes]; auto.
      + intros n a k b' Hin. apply in_app_or in Hin as [Hin|[Hin|[]]]; [exact (i_log0 _ _ _ _ Hin)|]. injection Hin as <- <- <- <-. unfold count in *. cbn [v_pages]. lia.
      + intros t'. rewrite Fl. cbn [fst snd]. rewrite rev_app_distr. destruct (beqb t' kind) eqn:Et.
        * cbn. unfold corners. now rewrite i_k0.
        * cbn [rev app]. apply i_deflt0.
      + intros q t' Hq. unfold box_asked. cbn [v_log]. rewrite Fl, rev_app_distr. cbn [concerns].
        replace (count v <? q) with false by (unfold count in *; cbn [v_pages] in Hq; lia). cbn [orb]. rewrite i_at0.
        destruct (v_at v =? q) eqn:Eq.
        * assert (q = v_at v) by lia. subst q. replace (0 <? v_at v) with true by (unfold count in *; cbn [v_pages] in Hq; lia). rewrite Z.eqb_refl, andb_true_r. cbn [andb]. destruct (beqb t' kind) eqn:Et.
          -- cbn. unfold corners. now rewrite i_k0.
          -- cbn [rev app]. apply i_boxes0. exact Hq.
        * replace (q =? v_at v) with false by lia. rewrite !andb_false_r. cbn [rev app]. apply i_boxes0. exact Hq.
    - (* no box *) assert (K : box_key t = None). { destruct (box_key t) as [k|] eqn:E; [|reflexivity]. apply box_key_spec in E. now apply H in E. }
      unfold set_page_box. rewrite K. destruct I. constructor; cbn [set_err v_err v_pages v_at v_log p_err p_n p_page p_def p_dor p_k p_unit p_cor p_cur p_w p_h p_wpt p_hpt p_trig p_bm p_sizes p_boxes p_defboxes]; auto.
    - (* SetError *) unfold set_error. destruct (p_err s) eqn:He; destruct I; constructor; cbn [set_err v_err v_pages v_at v_log p_err p_n p_page p_def p_dor p_k p_unit p_cor p_cur p_w p_h p_wpt p_hpt p_trig p_bm p_sizes p_boxes p_defboxes]; auto. now rewrite He.
    - (* ClearError *) destruct I. constructor; cbn [clear_error v_err v_pages v_at v_log p_err p_n p_page p_def p_dor p_k p_unit p_cor p_cur p_w p_h p_wpt p_hpt p_trig p_bm p_sizes p_boxes p_defboxes]; auto.
  Qed.
  Lemma steps_inv s0 : fresh s0 -> forall cs v v', vsteps (asked_default s0) v cs v' -> forall s, inv s0 s v -> inv s0 (prun cs s) v'.
  Proof. intros F cs v v' H. induction H; intros s I; [exact I|]. cbn. apply IHvsteps. eapply step_inv; eauto. Qed.
  Lemma inv_start s0 : fresh s0 -> inv s0 s0 start.
  Proof.
    intros (F1 & F2 & F3 & F4 & F5 & F6 & F7 & F8 & F9 & F10 & F11 & F12 & F13).
    constructor; cbn [start v_err v_pages v_at v_log count length last nth_error Z.of_nat]; auto; try lia; try (intros; contradiction).
    - now rewrite F1.
    - rewrite F4. destruct F2 as [X|X]; rewrite X; (split; [discriminate|]); intros c r [= <- <-]; reflexivity.
    - rewrite F3, F4. reflexivity.
    - intros q r Hq H. destruct (Z.to_nat (q - 1)); discriminate H.
  Qed.
  (** every history has a view *)
  Lemma vsteps_total (d : request P) cs : forall v, exists v', vsteps d v cs v'.
  Proof.
    induction cs as [|c cs IH]; intros v; [exists v; constructor|].
    assert (X : exists v1, vstep d v c v1).
    { destruct c; try (eexists; constructor; fail). destruct (box_key t) as [k|] eqn:E.
      - eexists. apply v_box. apply box_key_spec. exact E.
      - eexists. apply v_nobox. intros k H. apply box_key_spec in H. congruence. }
    destruct X as (v1 & V). destruct (IH v1) as (v' & Vs). exists v'. econstructor; eauto.
  Qed.
End Pages.
Arguments asked_default {P}. Arguments fresh {P}.

(** ** New documents *)
Section New.
  Variable P : pnum.
  (** what the arguments of New stand for when they are accepted *)
  Definition accepted (orient unit_ name : bytes) (sz : size P) (k : N P) (d : size P) (land : bool) : Prop :=
    unit_points P (or_else unit_ "mm") = Some k /\
    (if n_pos P (wd sz) && n_pos P (ht sz) then d = sz
     else exists z, find_size (lower (or_else name "A4")) (std_sizes P) = Some z /\ d = {| wd := n_div P (wd z) k; ht := n_div P (ht z) k |}) /\
    (if land then is (lower orient) ["l"; "landscape"]%string = true else orient = [] \/ is (lower orient) ["p"; "portrait"]%string = true).
  Definition made (unit_ : bytes) (k : N P) (d : size P) (land : bool) : pst P :=
    set_sizes d (if land then bs "L" else bs "P") (if land then ht d else wd d) (if land then wd d else ht d)
      (n_mul P (n_lit P 2 1) (n_div P (n_lit P 2835 100) k)) (set_unit k (or_else unit_ "mm") (blank P)).
  Lemma is_excl o : is o ["l"; "landscape"]%string = true -> is o ["p"; "portrait"]%string = false.
  Proof.
    unfold is. cbn [existsb]. rewrite !orb_false_r. intros H. apply orb_true_iff in H as [H|H]; apply beqb_eq in H; subst; reflexivity.
  Qed.
  Lemma new_spec orient unit_ name sz :
    (forall k d land, accepted orient unit_ name sz k d land -> new_doc orient unit_ name sz = made unit_ k d land) /\
    (p_err (new_doc orient unit_ name sz) = None -> exists k d land, accepted orient unit_ name sz k d land).
  Proof.
    split.
    - intros k d land (Hu & Hd & Ho). unfold new_doc. rewrite Hu. destruct (n_pos P (wd sz) && n_pos P (ht sz)) eqn:Ep.
      + subst d. cbn [p_err set_unit blank]. destruct land.
        * destruct orient as [|c o]; [discriminate Ho|]. rewrite (is_excl _ Ho), Ho. reflexivity.
        * destruct orient as [|c o]; [reflexivity|]. destruct Ho as [Ho|Ho]; [discriminate Ho|]. rewrite Ho. reflexivity.
      + destruct Hd as (z & Hz & ->). unfold get_page_size_str. cbn [p_err set_unit blank p_std]. rewrite Hz. cbn [p_err set_unit blank p_k]. destruct land.
        * destruct orient as [|c o]; [discriminate Ho|]. rewrite (is_excl _ Ho), Ho. reflexivity.
        * destruct orient as [|c o]; [reflexivity|]. destruct Ho as [Ho|Ho]; [discriminate Ho|]. rewrite Ho. reflexivity.
    - unfold new_doc, accepted. destruct (unit_points P (or_else unit_ "mm")) as [k|]; [|discriminate].
      assert (G : forall s : pst P, forall d, p_err (if is (match orient with [] => bs "p" | _ => lower orient end) ["p"; "portrait"]%string then set_sizes d (bs "P") (wd d) (ht d) (n_mul P (n_lit P 2 1) (n_div P (n_lit P 2835 100) k)) s
          else if is (match orient with [] => bs "p" | _ => lower orient end) ["l"; "landscape"]%string then set_sizes d (bs "L") (ht d) (wd d) (n_mul P (n_lit P 2 1) (n_div P (n_lit P 2835 100) k)) s
          else set_err (bs "incorrect orientation: " ++ match orient with [] => bs "p" | _ => lower orient end) s) = None ->
          exists land : bool, if land then is (lower orient) ["l"; "landscape"]%string = true else orient = [] \/ is (lower orient) ["p"; "portrait"]%string = true).
      { intros s d. destruct orient as [|c o]; [exists false; now left|]. destruct (is (lower (c :: o)) ["p"; "portrait"]%string) eqn:E1; [exists false; now right|].
        destruct (is (lower (c :: o)) ["l"; "landscape"]%string) eqn:E2; [now exists true|discriminate]. }
      destruct (n_pos P (wd sz) && n_pos P (ht sz)) eqn:Ep.
      + cbn [p_err set_unit blank]. intros H. apply G in H as (land & H). exists k, sz, land. auto.
      + unfold get_page_size_str. cbn [p_err set_unit blank p_std]. destruct (find_size (lower (or_else name "A4")) (std_sizes P)) as [z|] eqn:Ez; [|discriminate].
        cbn [p_err set_unit blank p_k]. intros H. apply G in H as (land & H). exists k, {| wd := n_div P (wd z) k; ht := n_div P (ht z) k |}, land. split; [reflexivity|]. split; [|exact H]. now exists z.
  Qed.
  Lemma made_fresh unit_ k d land : fresh (made unit_ k d land).
  Proof. unfold fresh, made. destruct land; cbn; repeat split; auto. Qed.
  Lemma new_fresh orient unit_ name sz : p_err (new_doc (P := P) orient unit_ name sz) = None -> fresh (new_doc orient unit_ name sz).
  Proof. intros H. destruct (new_spec orient unit_ name sz) as (N1 & N2). destruct (N2 H) as (k & d & land & A). rewrite (N1 _ _ _ A). apply made_fresh. Qed.
End New.

(** ** The pages a document ends up with *)
Theorem C82_pages :
  forall (P : pnum), (forall a b : N P, n_eqb P a b = true <-> a = b) ->
  forall orient unit_ name sz (s0 := new_doc (P := P) orient unit_ name sz), p_err s0 = None ->
  forall cs v, vsteps (asked_default s0) start cs v -> let s := prun cs s0 in
    p_n s = count v /\ p_page s = v_at v /\ (p_err s = None <-> v_err v = false) /\
    (* the size of every page in the file, in points *)
    (forall q r, 1 <= q -> nth_error (v_pages v) (Z.to_nat (q - 1)) = Some r -> media q s = points (p_k s0) (turned r)) /\
    (* GetPageSize: the size of the page added last *)
    get_page_size s = turned (last (v_pages v) (asked_default s0)) /\
    p_trig s = n_sub P (snd (get_page_size s)) (p_bm s) /\
    (* the boxes of every page, in points *)
    (forall q kind, 1 <= q <= count v -> p_boxes s q kind = option_map (corners (p_k s0)) (box_asked q kind v)).
Proof.
  intros P He orient unit_ name sz s0 Ok cs v V s.
  assert (F : fresh s0) by now apply new_fresh.
  pose proof (steps_inv P He s0 F cs _ _ V s0 (inv_start P s0 F)) as I. fold s in I. destruct I.
  split; [assumption|]. split; [assumption|]. split; [rewrite i_err0; destruct (p_err s); intuition congruence|].
  split; [assumption|]. split; [exact i_wh0|]. split; [exact i_trig0|]. exact i_boxes0.
Qed.
Print Assumptions C82_pages.


(** ** New and NewCustom over the real numbers *)
Open Scope R_scope.
Lemma Req_spec : forall a b : N Rnum, n_eqb Rnum a b = true <-> a = b.
Proof. intros a b. cbn. destruct (Req_EM_T a b); split; intros; congruence. Qed.
Lemma Rgtb_spec a b : Rgtb a b = true <-> a > b.
Proof. unfold Rgtb. destruct (Rlt_dec b a); split; intros; try discriminate; auto; lra. Qed.
Lemma unit_spec u k : unit_points Rnum u = Some k <-> unit_named u k.
Proof.
  unfold unit_points, unit_named, is. cbn [existsb n_lit n_div Rnum]. rewrite !orb_false_r.
  assert (K1 : IZR 72 / IZR 1 / (IZR 254 / IZR 10) = 72 / 25.4) by lra. assert (K2 : IZR 72 / IZR 1 / (IZR 254 / IZR 100) = 72 / 2.54) by lra. assert (K3 : IZR 72 / IZR 1 = 72) by lra. assert (K4 : IZR 1 / IZR 1 = 1) by lra.
  rewrite K1, K2, K3, K4. split.
  - intros H. repeat (match type of H with (if ?b then _ else _) = _ => let Q := fresh "Q" in destruct b eqn:Q; [|] end); try discriminate H.
    all: injection H as <-.
    all: repeat match goal with Q : _ || _ = true |- _ => apply orb_true_iff in Q as [Q|Q] | Q : beqb _ _ = true |- _ => apply beqb_eq in Q end.
    all: subst; cbn; intuition.
  - intros H. repeat match goal with H : _ \/ _ |- _ => destruct H | H : _ /\ _ |- _ => destruct H | H : In _ _ |- _ => cbn in H end; subst; try contradiction; reflexivity.
Qed.
Lemma paper_spec n z : find_size n (std_sizes Rnum) = Some z -> is_paper n (wd z) (ht z).
Proof.
  unfold std_sizes. intros H. cbn [find_size] in H.
  repeat (match type of H with (if beqb n ?x then _ else _) = _ => let Q := fresh "Q" in destruct (beqb n x) eqn:Q; [apply beqb_eq in Q; injection H as <-; subst n|clear Q] end); try discriminate H.
  all: cbn [wd ht n_lit Rnum]; unfold is_paper, us_papers, iso_papers.
  - right. exists "a3"%string, 297, 420. split; [cbn; tauto|]. split; [reflexivity|]. split; apply Rabs_le; lra.
  - right. exists "a4"%string, 210, 297. split; [cbn; tauto|]. split; [reflexivity|]. split; apply Rabs_le; lra.
  - right. exists "a5"%string, 148, 210. split; [cbn; tauto|]. split; [reflexivity|]. split; apply Rabs_le; lra.
  - right. exists "a6"%string, 105, 148. split; [cbn; tauto|]. split; [reflexivity|]. split; apply Rabs_le; lra.
  - right. exists "a2"%string, 420, 594. split; [cbn; tauto|]. split; [reflexivity|]. split; apply Rabs_le; lra.
  - right. exists "a1"%string, 594, 841. split; [cbn; tauto|]. split; [reflexivity|]. split; apply Rabs_le; lra.
  - left. exists "letter"%string, 8.5, 11. split; [cbn; tauto|]. split; [reflexivity|]. split; lra.
  - left. exists "legal"%string, 8.5, 14. split; [cbn; tauto|]. split; [reflexivity|]. split; lra.
  - left. exists "tabloid"%string, 11, 17. split; [cbn; tauto|]. split; [reflexivity|]. split; lra.
Qed.
Lemma paper_known n : (exists z, find_size n (std_sizes Rnum) = Some z) <-> In n (map (fun e => bs (fst e)) (us_papers ++ iso_papers)).
Proof.
  unfold std_sizes. cbn [find_size]. cbn [us_papers iso_papers map fst app]. split.
  - intros (z & H). repeat (match type of H with (if beqb n ?x then _ else _) = _ => let Q := fresh "Q" in destruct (beqb n x) eqn:Q; [apply beqb_eq in Q; subst n; cbn [In]; tauto|clear Q] end). discriminate H.
  - intros H. cbn [In] in H. repeat (destruct H as [<-|H]; [eexists; reflexivity|]). destruct H.
Qed.

(** New succeeds exactly for a known unit, a known orientation and a size (or the name of a known paper); the default page then has
    that size, in the unit, and lies as asked. *)
Theorem C82_new :
  forall orient unit_ name (sz : size Rnum) (s := new_doc (P := Rnum) orient unit_ name sz),
    let u := or_else unit_ "mm" in let n := lower (or_else name "A4") in let given := wd sz > 0 /\ ht sz > 0 in
    let portrait := orient = [] \/ In (lower orient) [bs "p"; bs "portrait"] in let landscape := In (lower orient) [bs "l"; bs "landscape"] in
    (p_err s = None <-> (exists k, unit_named u k) /\ (given \/ In n (map (fun e => bs (fst e)) (us_papers ++ iso_papers))) /\ (portrait \/ landscape)) /\
    (p_err s = None -> exists k d, unit_named u k /\ p_unit s = u /\ p_k s = k /\
      (given -> d = sz) /\ (~ given -> is_paper n (wd d * k) (ht d * k)) /\
      (portrait -> asked_default s = (false, d) /\ get_page_size s = (wd d, ht d)) /\ (landscape -> asked_default s = (true, d) /\ get_page_size s = (ht d, wd d))).
Proof.
  intros orient unit_ name sz s u n given portrait landscape.
  assert (Gv : n_pos Rnum (wd sz) && n_pos Rnum (ht sz) = true <-> given).
  { unfold given. rewrite andb_true_iff. cbn [n_pos Rnum]. rewrite !Rgtb_spec. reflexivity. }
  assert (Isp : is (lower orient) ["p"; "portrait"]%string = true <-> In (lower orient) [bs "p"; bs "portrait"]).
  { unfold is. cbn [existsb In]. rewrite !orb_true_iff, !beqb_eq. intuition congruence. }
  assert (Isl : is (lower orient) ["l"; "landscape"]%string = true <-> landscape).
  { unfold is, landscape. cbn [existsb In]. rewrite !orb_true_iff, !beqb_eq. intuition congruence. }
  assert (Kp : forall k, unit_named u k -> k > 0). { intros k [(_ & ->)|[(_ & ->)|[(_ & ->)|(_ & ->)]]]; lra. }
  destruct (new_spec Rnum orient unit_ name sz) as (N1 & N2). split; [split|].
  - intros H. destruct (N2 H) as (k & d & land & A1 & A2 & A3). apply unit_spec in A1. split; [eauto|]. split.
    + destruct (n_pos Rnum (wd sz) && n_pos Rnum (ht sz)) eqn:Ep; [left; now apply Gv|right]. destruct A2 as (z & Hz & _). apply paper_known. eauto.
    + destruct land; [right; now apply Isl|left]. unfold portrait. rewrite <- Isp. exact A3.
  - intros ((k & Hk) & Hs & Ho). apply unit_spec in Hk.
    assert (A2 : exists d, if n_pos Rnum (wd sz) && n_pos Rnum (ht sz) then d = sz
     else exists z, find_size n (std_sizes Rnum) = Some z /\ d = {| wd := n_div Rnum (wd z) k; ht := n_div Rnum (ht z) k |}).
    { destruct (n_pos Rnum (wd sz) && n_pos Rnum (ht sz)) eqn:Ep; [eexists; reflexivity|]. destruct Hs as [Hs|Hs]; [apply Gv in Hs; congruence|]. apply paper_known in Hs as (z & Hz). eexists. exists z. split; [exact Hz|reflexivity]. }
    destruct A2 as (d & A2). assert (A3 : exists land : bool, if land then is (lower orient) ["l"; "landscape"]%string = true else orient = [] \/ is (lower orient) ["p"; "portrait"]%string = true).
    { destruct Ho as [Ho|Ho]; [exists false; unfold portrait in Ho; rewrite Isp; exact Ho|exists true; now apply Isl]. }
    destruct A3 as (land & A3). unfold s. rewrite (N1 k d land); [destruct land; reflexivity|]. split; [exact Hk|]. split; [exact A2|exact A3].
  - intros H. destruct (N2 H) as (k & d & land & A1 & A2 & A3). exists k, d. pose proof A1 as A1'. apply unit_spec in A1. pose proof (Kp k A1) as Hk.
    unfold s. rewrite (N1 k d land (conj A1' (conj A2 A3))).
    split; [exact A1|]. split; [destruct land; reflexivity|]. split; [destruct land; reflexivity|]. split; [|split].
    + intros G. apply Gv in G. rewrite G in A2. exact A2.
    + intros G. destruct (n_pos Rnum (wd sz) && n_pos Rnum (ht sz)) eqn:Ep; [destruct G; now apply Gv|]. destruct A2 as (z & Hz & ->). apply paper_spec in Hz. cbn [wd ht n_div Rnum].
      assert (Ex : forall x : R, x / k * k = x) by (intros x; field; intros ->; lra). change (is_paper n (wd z / k * k) (ht z / k * k)). rewrite !Ex. exact Hz.
    + split; intros Ho.
      * destruct land; [|split; reflexivity]. exfalso. apply is_excl in A3 as A4. destruct Ho as [->|Ho]; [discriminate A3|]. apply Isp in Ho. congruence.
      * destruct land; [split; reflexivity|]. exfalso. apply Isl in Ho. destruct A3 as [->|A3]; [discriminate Ho|]. apply is_excl in Ho. congruence.
Qed.
Print Assumptions C82_new.

(** ** PageSize: right for documents whose default is portrait *)
Theorem C82_page_size_partial :
  forall orient unit_ name (sz : size Rnum) (s0 := new_doc (P := Rnum) orient unit_ name sz), p_err s0 = None -> fst (asked_default s0) = false ->
  forall cs v, vsteps (asked_default s0) start cs v ->
    (forall q r, (1 <= q)%Z -> nth_error (v_pages v) (Z.to_nat (q - 1)) = Some r -> page_size q (prun cs s0) = (turned r, p_unit s0)) /\
    (forall q, (q < 1 \/ count v < q)%Z -> page_size q (prun cs s0) = (turned (asked_default s0), p_unit s0)).
Proof.
  intros orient unit_ name sz s0 Ok Po cs v V. destruct (C82_pages Rnum Req_spec orient unit_ name sz Ok cs v V) as (_ & _ & _ & Hm & _).
  assert (F : fresh s0) by now apply new_fresh.
  pose proof (steps_inv Rnum Req_spec s0 F cs _ _ V s0 (inv_start Rnum s0 F)) as I. fold s0 in Hm. cbv zeta in Hm.
  destruct (C82_new orient unit_ name sz) as (_ & Hn). destruct (Hn Ok) as (k & d & Hk & _ & Ek & _). fold s0 in Ek.
  assert (Kp : k > 0). { destruct Hk as [(_ & ->)|[(_ & ->)|[(_ & ->)|(_ & ->)]]]; lra. }
  assert (Dp : p_dor s0 = bs "P"). { unfold asked_default in Po. cbn [fst] in Po. apply negb_false_iff, beqb_eq in Po. exact Po. }
  set (s := prun cs s0) in *. split.
  - intros q r Hq Hr. specialize (Hm q r Hq Hr). unfold page_size. unfold media in Hm. rewrite (i_unit _ _ _ _ I), (i_k _ _ _ _ I), Ek.
    destruct (p_sizes s q) as [z|].
    + subst z. rewrite Ek. unfold points. cbn [wd ht n_mul n_div Rnum]. destruct (turned r) as [a b]. cbn [fst snd]. assert (Ex : forall x : R, x * k / k = x) by (intros x; field; intros ->; lra). change ((a * k / k, b * k / k, p_unit s0) = ((a, b), p_unit s0)). rewrite !Ex. reflexivity.
    + unfold default_media, points in Hm. rewrite (i_dor _ _ _ _ I), Dp in Hm. change (beqb (bs "P") (bs "P")) with true in Hm. cbn iota in Hm. injection Hm as H1 H2.
      rewrite (i_k _ _ _ _ I), Ek in H1, H2. destruct (turned r) as [a b]. cbn [fst snd] in H1, H2. cbn [n_mul Rnum] in H1, H2. f_equal. f_equal; eapply Rmult_eq_reg_r; eauto; lra.
  - intros q Hq. unfold page_size. rewrite (i_unit _ _ _ _ I).
    assert (X : p_sizes s q = None). { now apply (i_beyond _ _ _ _ I). }
    rewrite X, (i_def _ _ _ _ I). unfold turned, asked_default. cbn [fst snd]. rewrite Dp. reflexivity.
Qed.
Print Assumptions C82_page_size_partial.

(** ** Where the code does not do what is said *)
Notation SZ a b := (Build_size (P := Rnum) a b).
Definition no_size : size Rnum := SZ 0 0.
Lemma ok_new o u n : unit_named (or_else u "mm") 1 \/ unit_named (or_else u "mm") (72 / 25.4) -> In (lower (or_else n "A4")) (map (fun e => bs (fst e)) (us_papers ++ iso_papers)) ->
  (o = [] \/ In (lower o) [bs "p"; bs "portrait"]) \/ In (lower o) [bs "l"; bs "landscape"] -> p_err (new_doc (P := Rnum) o u n no_size) = None.
Proof. intros Hu Hn Ho. apply C82_new. split; [destruct Hu; eauto|]. split; [now right|exact Ho]. Qed.

(** *** PageSize in a landscape document: width and height are exchanged *)
Theorem C82_page_size_refuted :
  exists cs v, let s0 := new_doc (P := Rnum) (bs "L") (bs "pt") (bs "Letter") no_size in let s := prun cs s0 in
    p_err s0 = None /\ vsteps (asked_default s0) start cs v /\ p_err s = None /\ v_pages v = [(true, SZ 612 792)] /\
    media 1 s = SZ 792 612 /\ page_size 1 s = ((612, 792), bs "pt").
Proof.
  exists [AddPage Rnum], (add_sheet (true, SZ 612 792) start). cbv zeta.
  assert (Ok : p_err (new_doc (P := Rnum) (bs "L") (bs "pt") (bs "Letter") no_size) = None).
  { apply ok_new; [left; left; cbn; auto|cbn; auto|right; cbn; auto]. }
  assert (E : new_doc (P := Rnum) (bs "L") (bs "pt") (bs "Letter") no_size = made Rnum (bs "pt") 1 (SZ 612 792) true).
  { apply new_spec. split; [apply unit_spec; left; cbn; auto|]. split; [|reflexivity].
    replace (n_pos Rnum (wd no_size) && n_pos Rnum (ht no_size)) with false. 2:{ cbn. unfold Rgtb. destruct (Rlt_dec 0 0); [lra|reflexivity]. }
    eexists. split; [reflexivity|]. cbn [wd ht n_div n_lit Rnum]. f_equal; lra. }
  split; [exact Ok|]. rewrite E.
  assert (Req : forall x : R, (if Req_EM_T x x then true else false) = true) by (intros x; now destruct (Req_EM_T x x)).
  split; [eapply vs_cons; [apply v_add|apply vs_nil]|]. split; [reflexivity|]. split; [reflexivity|].
  cbn [prun fold_left pstep add_page]. unfold add_page, add_page_format, begin_page, media, page_size. cbn. rewrite !Req. cbn. split; f_equal; lra.
Qed.
Print Assumptions C82_page_size_refuted.

(** *** GetPageSize after SetPage: the size of another page *)
Theorem C82_get_page_size_refuted :
  exists cs v, let s0 := new_doc (P := Rnum) (bs "P") (bs "pt") (bs "Letter") no_size in let s := prun cs s0 in
    p_err s0 = None /\ vsteps (asked_default s0) start cs v /\ p_err s = None /\ v_at v = 1%Z /\ nth_error (v_pages v) 0 = Some (false, SZ 612 792) /\
    media 1 s = SZ 612 792 /\ get_page_size s = (792, 612).
Proof.
  exists [AddPage Rnum; AddPageFormat Rnum (bs "L") (SZ 612 792); SetPage Rnum 1]. eexists. cbv zeta.
  assert (Ok : p_err (new_doc (P := Rnum) (bs "P") (bs "pt") (bs "Letter") no_size) = None).
  { apply ok_new; [left; left; cbn; auto|cbn; auto|left; right; cbn; auto]. }
  assert (E : new_doc (P := Rnum) (bs "P") (bs "pt") (bs "Letter") no_size = made Rnum (bs "pt") 1 (SZ 612 792) false).
  { apply new_spec. split; [apply unit_spec; left; cbn; auto|]. split; [|now right].
    replace (n_pos Rnum (wd no_size) && n_pos Rnum (ht no_size)) with false. 2:{ cbn. unfold Rgtb. destruct (Rlt_dec 0 0); [lra|reflexivity]. }
    eexists. split; [reflexivity|]. cbn [wd ht n_div n_lit Rnum]. f_equal; lra. }
  split; [exact Ok|]. rewrite E.
  assert (Req : forall x : R, (if Req_EM_T x x then true else false) = true) by (intros x; now destruct (Req_EM_T x x)).
  split; [eapply vs_cons; [apply v_add|]; eapply vs_cons; [apply v_format|]; eapply vs_cons; [apply v_setpage|apply vs_nil]|].
  unfold prun, pstep, add_page, add_page_format, begin_page, set_page, media, get_page_size. cbn. rewrite !Req. cbn.
  repeat split; f_equal; lra.
Qed.
Print Assumptions C82_get_page_size_refuted.

(** *** An orientation that is none: New refuses it, AddPageFormat makes a landscape page *)
Theorem C82_orientation_refuted :
  let s0 := new_doc (P := Rnum) (bs "P") (bs "pt") (bs "Letter") no_size in
  p_err s0 = None /\ p_err (new_doc (P := Rnum) (bs "upright") (bs "pt") (bs "Letter") no_size) <> None /\
  forall sz, let s := prun [AddPageFormat Rnum (bs "upright") sz] s0 in p_err s = None /\ get_page_size s = (ht sz, wd sz).
Proof.
  cbv zeta.
  assert (Ok : p_err (new_doc (P := Rnum) (bs "P") (bs "pt") (bs "Letter") no_size) = None).
  { apply ok_new; [left; left; cbn; auto|cbn; auto|left; right; cbn; auto]. }
  split; [exact Ok|]. split.
  - intros H. apply C82_new in H as (_ & _ & [[X|X]|X]); [discriminate X| |]; cbn in X; repeat destruct X as [X|X]; try discriminate X; destruct X.
  - intros sz. set (s0 := new_doc (P := Rnum) (bs "P") (bs "pt") (bs "Letter") no_size) in *.
    assert (V : vsteps (asked_default s0) start [AddPageFormat Rnum (bs "upright") sz] (add_sheet (true, sz) start)).
    { eapply vs_cons; [|apply vs_nil]. apply (v_format Rnum (asked_default s0) start (bs "upright") sz). }
    destruct (C82_pages Rnum Req_spec (bs "P") (bs "pt") (bs "Letter") no_size Ok _ _ V) as (_ & _ & He & _ & Hg & _). split; [now apply He|exact Hg].
Qed.
Print Assumptions C82_orientation_refuted.

(** *** A box at (x, y) is measured from the lower edge of the page, everything else is measured from the upper edge *)
Theorem C82_box_origin_refuted :
  let s0 := new_doc (P := Rnum) (bs "P") (bs "pt") (bs "Letter") no_size in
  p_err s0 = None /\ exists b : box Rnum, exists cs v, vsteps (asked_default s0) start cs v /\ box_asked 1 (bs "CropBox") v = Some b /\
    exists c, p_boxes (prun cs s0) 1 (bs "CropBox") = Some c /\ by_ c = by_ b * p_k s0 /\ by_ c <> (snd (get_page_size (prun cs s0)) - by_ b - bh b) * p_k s0.
Proof.
  cbv zeta.
  assert (Ok : p_err (new_doc (P := Rnum) (bs "P") (bs "pt") (bs "Letter") no_size) = None).
  { apply ok_new; [left; left; cbn; auto|cbn; auto|left; right; cbn; auto]. }
  split; [exact Ok|].
  assert (E : new_doc (P := Rnum) (bs "P") (bs "pt") (bs "Letter") no_size = made Rnum (bs "pt") 1 (SZ 612 792) false).
  { apply new_spec. split; [apply unit_spec; left; cbn; auto|]. split; [|now right].
    replace (n_pos Rnum (wd no_size) && n_pos Rnum (ht no_size)) with false. 2:{ cbn. unfold Rgtb. destruct (Rlt_dec 0 0); [lra|reflexivity]. }
    eexists. split; [reflexivity|]. cbn [wd ht n_div n_lit Rnum]. f_equal; lra. }
  exists (Build_box (P := Rnum) 10 20 100 200), [AddPage Rnum; SetPageBox Rnum (bs "Crop") (Build_box (P := Rnum) 10 20 100 200)]. eexists. 
  match goal with |- ?A /\ _ => assert (V : A) end.
  { eapply vs_cons; [apply v_add|]; eapply vs_cons; [apply (v_box Rnum _ _ _ (bs "CropBox")); apply box_key_spec; reflexivity|apply vs_nil]. }
  split; [exact V|]. split; [reflexivity|].
  destruct (C82_pages Rnum Req_spec (bs "P") (bs "pt") (bs "Letter") no_size Ok _ _ V) as (_ & _ & _ & _ & Hg & _ & Hb).
  eexists. split; [rewrite (Hb 1%Z (bs "CropBox")); [reflexivity|cbn; lia]|]. cbn [by_ corners n_mul Rnum]. split; [reflexivity|].
  rewrite Hg. cbn [v_pages last turned fst snd asked_default]. rewrite E. cbn. lra.
Qed.
Print Assumptions C82_box_origin_refuted.

(** *** The font size of a new document, before SetFont: GetFontSize gives 12 points and, in the unit of the document, 12 divided by
    zero, because the size is set before the unit.  In floating point that is infinite. *)
From Coq Require Import Floats.SpecFloat.
Definition sf (z : Z) : spec_float := binary_normalize 53 1024 z 0 false.
Definition Fnum : pnum := {|
  N := spec_float; n_lit := fun a b => SFdiv 53 1024 (sf a) (sf b); n_mul := SFmul 53 1024; n_div := SFdiv 53 1024; n_add := SFadd 53 1024; n_sub := SFsub 53 1024;
  n_pos := fun x => SFltb (sf 0) x; n_gt := fun a b => SFltb b a; n_eqb := SFeqb |}.
Theorem C82_font_size_refuted :
  let s := new_doc (P := Fnum) [] [] [] (Build_size (P := Fnum) (sf 0) (sf 0)) in
  p_err s = None /\ p_fs s = S754_infinity false /\ n_div Fnum (n_lit Fnum 12 1) (p_k s) <> S754_infinity false.
Proof. vm_compute. repeat split; discriminate. Qed.
Print Assumptions C82_font_size_refuted.

(** ** SizeType *)
Theorem C82_scaled :
  forall (z : size Rnum) x, wd z > 0 -> ht z > 0 ->
    (wd (scale_to_width x z) = x /\ ht (scale_to_width x z) * wd z = ht z * x) /\
    (ht (scale_to_height x z) = x /\ wd (scale_to_height x z) * ht z = wd z * x) /\
    scale_by x z = SZ (wd z * x) (ht z * x) /\
    (orientation z = bs "L" <-> wd z > ht z) /\ (orientation z = bs "P" <-> wd z < ht z) /\ (orientation z = [] <-> wd z = ht z).
Proof.
  intros [w h] x W H. cbn in W, H. cbn [scale_to_width scale_to_height scale_by wd ht n_mul n_div Rnum].
  split; [split; [reflexivity|change (h * x / w * w = h * x); field; lra]|]. split; [split; [reflexivity|change (w * x / h * h = w * x); field; lra]|]. split; [reflexivity|].
  unfold orientation. cbn [wd ht n_eqb n_gt Rnum]. destruct (Req_EM_T h w) as [->|Ne].
  - repeat split; intros X; try discriminate X; try lra; reflexivity.
  - destruct (Rgtb w h) eqn:E; [apply Rgtb_spec in E|assert (~ w > h) by (intros X; apply Rgtb_spec in X; congruence)].
    all: repeat split; intros X; try discriminate X; try reflexivity; lra.
Qed.
Print Assumptions C82_scaled.

(** a document with three pages of different sizes, and boxes *)
Example C82_ex :
  let s0 := new_doc (P := Rnum) [] (bs "pt") (bs "LETTER") no_size in
  p_err s0 = None /\
  exists v, let cs := [SetPageBox Rnum (bs "TRIM") (Build_box (P := Rnum) 1 2 3 4); AddPage Rnum; AddPageFormat Rnum (bs "landscape") (SZ 200 300);
       SetPageBox Rnum (bs "trimbox") (Build_box (P := Rnum) 5 6 7 8); BreakPage Rnum; SetPage Rnum 1] in
    vsteps (asked_default s0) start cs v /\ v_pages v = [(false, SZ 612 792); (true, SZ 200 300); (true, SZ 200 300)] /\
    box_asked 1 (bs "TrimBox") v = Some (Build_box (P := Rnum) 1 2 3 4) /\ box_asked 2 (bs "TrimBox") v = Some (Build_box (P := Rnum) 5 6 7 8) /\
    box_asked 3 (bs "TrimBox") v = Some (Build_box (P := Rnum) 5 6 7 8) /\ box_asked 3 (bs "ArtBox") v = None.
Proof.
  cbv zeta.
  assert (Ok : p_err (new_doc (P := Rnum) [] (bs "pt") (bs "LETTER") no_size) = None).
  { apply ok_new; [left; left; cbn; auto|cbn; auto|left; left; reflexivity]. }
  assert (E : new_doc (P := Rnum) [] (bs "pt") (bs "LETTER") no_size = made Rnum (bs "pt") 1 (SZ 612 792) false).
  { apply new_spec. split; [apply unit_spec; left; cbn; auto|]. split; [|now left].
    replace (n_pos Rnum (wd no_size) && n_pos Rnum (ht no_size)) with false. 2:{ cbn. unfold Rgtb. destruct (Rlt_dec 0 0); [lra|reflexivity]. }
    eexists. split; [reflexivity|]. cbn [wd ht n_div n_lit Rnum]. f_equal; lra. }
  split; [exact Ok|]. rewrite E. eexists. split.
  { eapply vs_cons; [apply (v_box Rnum _ _ _ (bs "TrimBox")); apply box_key_spec; reflexivity|]. eapply vs_cons; [apply v_add|]. eapply vs_cons; [apply v_format|].
    eapply vs_cons; [apply (v_box Rnum _ _ _ (bs "TrimBox")); apply box_key_spec; reflexivity|]. eapply vs_cons; [apply v_break|]. eapply vs_cons; [apply v_setpage|apply vs_nil]. }
  repeat split; reflexivity.
Qed.
