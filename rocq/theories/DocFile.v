(** enddoc as a whole. *)
From Verif Require Import Base TextModel Crypto DocModel DocSpec DocProofs DocWalk PageSpec DocPage DocParts DocRes DocRes2 DocEnd DocXref DocLayout.
From Coq Require Import String Permutation.
Open Scope Z_scope.
Notation length := List.length.
Local Notation "a +++ b" := (List.app a b) (at level 60, right associativity, only parsing).

Section File.
  Context {E : env} (d : doc (e_num E)).

  Lemma put_catalog_full w :
    exists t, writes w (put_catalog d w) ((bs "/Type /Catalog" +++ nl +++ bs "/Pages 1 0 R" +++ nl) +++ t) /\
      w_tab (put_catalog d w) = w_tab w /\
      (d_outlines d <> [] -> occurs (bs "/Outlines " +++ dec (saved SOutl w) +++ bs " 0 R") t) /\
      occurs (bs "/EmbeddedFiles " +++ embedded_files d w) t.
  Proof.
    unfold put_catalog. cbv zeta.
    assert (W : writes w (out (bs "/Pages 1 0 R") (out (bs "/Type /Catalog") w)) (bs "/Type /Catalog" +++ nl +++ bs "/Pages 1 0 R" +++ nl)).
    { pose proof (writes_snoc _ _ _ (bs "/Pages 1 0 R") (writes_out (bs "/Type /Catalog") w)) as H. rewrite <- ?app_assoc in H. exact H. }
    set (v := out (bs "/Pages 1 0 R") (out (bs "/Type /Catalog") w)) in *.
    assert (Tv : w_tab v = w_tab w) by reflexivity. clearbody v.
    set (v1 := if beqb (d_zoom d) (bs "fullpage") then _ else _).
    assert (G1 : grow v v1 /\ w_tab v1 = w_tab v).
    { unfold v1. repeat match goal with |- context [if ?c then _ else _] => destruct c end; split; try reflexivity; try (apply grow_out, grow_refl); apply grow_refl. }
    clearbody v1. destruct G1 as [[s1 G1] T1].
    set (v2 := if mem _ _ then _ else _).
    assert (G2 : grow v1 v2 /\ w_tab v2 = w_tab v1).
    { unfold v2. repeat match goal with |- context [if ?c then _ else _] => destruct c end; split; try reflexivity; try (apply grow_out, grow_refl); apply grow_refl. }
    clearbody v2. destruct G2 as [[s2 G2] T2].
    set (v3 := if 0 <? zlen (d_outlines d) then _ else _).
    assert (G3 : exists s, writes v2 v3 s /\ w_tab v3 = w_tab v2 /\ (d_outlines d <> [] -> occurs (bs "/Outlines " +++ dec (saved SOutl w) +++ bs " 0 R") s)).
    { unfold v3. assert (Es : saved SOutl v2 = saved SOutl w) by (unfold saved; rewrite T2, T1, Tv; reflexivity). rewrite Es.
      destruct (0 <? zlen (d_outlines d)) eqn:Ez.
      - eexists. split; [apply writes_snoc, writes_out|]. split; [reflexivity|]. intros _. apply occurs_app_l, occurs_app_l, occurs_refl.
      - exists []. split; [apply writes_refl|]. split; [reflexivity|]. intros H. destruct (d_outlines d); [contradiction|]. rewrite zlen_cons in Ez. pose proof (zlen_nonneg l). lia. }
    clearbody v3. destruct G3 as (s3 & G3 & T3 & O3).
    set (v4 := if 0 <? zlen (d_layers d) then _ else _).
    assert (G4 : grow v3 v4 /\ w_tab v4 = w_tab v3).
    { unfold v4. destruct (0 <? zlen (d_layers d)); [|split; [apply grow_refl|reflexivity]].
      destruct (d_pane d); split; try reflexivity; repeat apply grow_out; apply grow_refl. }
    clearbody v4. destruct G4 as [[s4 G4] T4].
    set (v5 := match d_js d with Some _ => _ | None => _ end).
    assert (G5 : grow v4 v5 /\ w_tab v5 = w_tab v4).
    { unfold v5. destruct (d_js d); split; try reflexivity; repeat apply grow_out; apply grow_refl. }
    clearbody v5. destruct G5 as [[s5 G5] T5].
    assert (Ee : embedded_files d v5 = embedded_files d w).
    { assert (T : w_tab v5 = w_tab w) by (rewrite T5, T4, T3, T2, T1, Tv; reflexivity). clear - T.
      assert (X : forall l i, embedded_names d i l v5 = embedded_names d i l w).
      { induction l as [|q l IH]; intros i; [reflexivity|]. cbn [embedded_names]. rewrite IH. unfold att_num. now rewrite T. }
      unfold embedded_files. now rewrite X. }
    rewrite Ee.
    eexists (s1 +++ s2 +++ s3 +++ s4 +++ s5 +++ (bs "/EmbeddedFiles " +++ embedded_files d w) +++ nl +++ bs ">>" +++ nl).
    split; [|split; [|split]].
    - pose proof (writes_trans _ _ _ _ _ (writes_trans _ _ _ _ _ (writes_trans _ _ _ _ _ (writes_trans _ _ _ _ _ (writes_trans _ _ _ _ _ W G1) G2) G3) G4) G5) as X.
      apply (writes_snoc _ _ _ (bs "/EmbeddedFiles " +++ embedded_files d w)), (writes_snoc _ _ _ (bs ">>")) in X.
      rewrite <- ?app_assoc in X. rewrite <- ?app_assoc. exact X.
    - change (w_tab v5 = w_tab w). rewrite T5, T4, T3, T2, T1, Tv. reflexivity.
    - intros H. do 2 apply occurs_app_r. apply occurs_app_l. auto.
    - do 5 apply occurs_app_r. apply occurs_app_l, occurs_refl.
  Qed.

  Record assembled (pre : bytes) (fin : wst) (os : list (Z * bytes)) (ps : list Z) (oa : list (Z * bytes)) : Prop := {
    as_buf : exists offs enc, zlen offs = w_n fin /\
      w_buf fin = (pre +++ render os) +++ xref_text (w_n fin) (zlen (pre +++ render os)) offs (trailer_text (w_n fin) enc) /\
      (forall a o c, os = a +++ o :: c -> nth_error offs (Z.to_nat (fst o - 1)) = Some (zlen (pre +++ render a))) /\
      match d_protect d with
      | None => enc = None
      | Some p => exists k, enc = Some k /\ In (obj k (enc_body p)) os
      end;
    as_nums : Permutation (map fst os) (nums 1 (Z.to_nat (w_n fin)));
    as_n : 4 <= w_n fin;
    as_closed : Forall closed os;
    as_att : att_objs d 3 ps oa /\ NoDup ps /\ (forall p, In p ps <-> In p (used_atts d) /\ att_num d p {| w_buf := []; w_n := 2; w_offs := []; w_tab := []; w_cip := None; w_err := false; w_panic := false |} = 0) /\
             (forall p, In p (used_atts d) -> at_ (d_atts d) p <> None) /\ exists r, os = oa +++ r;
    as_nums_att : exists tab, (forall i p, nth_error ps i = Some p -> att_of d tab p = 4 + 2 * Z.of_nat i) /\ (forall p, ~ In p ps -> att_of d tab p = att_of d [] p) /\
      pages_at d tab (3 + 2 * zlen ps) os;
    as_pages : (exists tab, pages_at d tab (3 + 2 * zlen ps) os) /\ In (obj 1 (pages_body d (odd_from (3 + 2 * zlen ps) (length (doc_pages d))) (tree_tail d))) os;
    as_dpage : d_page d <= zlen (d_pages d) /\ alias_panics d = false;
    as_res : resources d os;
    as_dict : exists t, In (obj 2 (bs "<<" +++ nl +++ t)) os;
    as_xmp : d_xmp d <> [] -> holds d (d_xmp d) os;
    as_outl : exists n, outlines_written d n os /\
       exists t, In (obj (w_n fin) (bs "<<" +++ nl +++ bs "/Type /Catalog" +++ nl +++ bs "/Pages 1 0 R" +++ nl +++ t)) os /\
         (d_outlines d <> [] -> occurs (bs "/Outlines " +++ dec (n + zlen (d_outlines d)) +++ bs " 0 R") t);
    as_info : exists t, In (obj (w_n fin - 1) t) os;
    (* the resource dictionary, printed in a state [u] after the objects [o1] of the resources *)
    as_exact : exists w o1 u t, 2 <= w_n w /\ lenok w /\ cipok w /\ ok (before_dict d w) /\ adds w (before_dict d w) o1 /\ incl o1 os /\
       w_tab u = w_tab (before_dict d w) /\ writes u (put_resource_dict d u) t /\ In (obj 2 (bs "<<" +++ nl +++ t +++ bs ">>" +++ nl)) os;
    (* the last two objects, printed in states whose tables are known *)
    as_end : exists w2 o1 w6 ti tc n, let w3 := put_pages d w2 in let w7 := put_info_obj d w6 in
       cipok w2 /\ (forall i p, nth_error ps i = Some p -> att_of d (w_tab w2) p = 4 + 2 * Z.of_nat i) /\ (forall p, ~ In p ps -> att_of d (w_tab w2) p = att_of d [] p) /\
       2 <= w_n w3 /\ lenok w3 /\ cipok w3 /\ ok (before_dict d w3) /\ adds w3 (before_dict d w3) o1 /\ incl o1 os /\
       adds w6 w7 [obj (w_n fin - 1) ti] /\ In (obj (w_n fin - 1) ti) os /\ adds w7 (put_catalog_obj d w7) [obj (w_n fin) tc] /\ In (obj (w_n fin) tc) os /\ cipok w6 /\
       outlines_written d n os /\ (d_outlines d <> [] -> saved SOutl w7 = n + zlen (d_outlines d)) /\
       (forall js, d_js d = Some js -> exists k, In (obj k (js_names (k + 1))) os /\ In (obj (k + 1) (js_action (cipher d (k + 1) js))) os /\ saved SJs w7 = k) /\
       (forall s, s <> SJs -> s <> SEnc -> s <> SOutl -> find_slot s (w_tab w7) = find_slot s (w_tab (before_dict d w3))) }.

  Definition w_init (pre : bytes) : wst :=
    {| w_buf := pre; w_n := 2; w_offs := []; w_tab := []; w_cip := None; w_err := false; w_panic := false |}.
  Definition header : bytes := (bs "%PDF-" +++ version2 d) +++ nl.

  Lemma pages_at_app_l tab k a b : pages_at d tab k a -> pages_at d tab k (a +++ b).
  Proof. intros H i pg Hp. destruct (H i pg Hp) as (x & o & c & -> & Ho). exists x, o, (c +++ b). split; [now rewrite <- ?app_assoc|exact Ho]. Qed.
  Lemma pages_at_app_r tab k a b : pages_at d tab k b -> pages_at d tab k (a +++ b).
  Proof. intros H i pg Hp. destruct (H i pg Hp) as (x & o & c & -> & Ho). exists (a +++ x), o, c. split; [now rewrite <- ?app_assoc|exact Ho]. Qed.
  Lemma resources_app_l a b : resources d a -> resources d (a +++ b).
  Proof. apply (resources_mono d []). Qed.
  Lemma resources_app_r a b : resources d b -> resources d (a +++ b).
  Proof. intros H. rewrite <- (app_nil_r b). now apply resources_mono. Qed.

  Lemma put_resources_ok w : cipok w -> ok (put_resources d w) -> ok w.
  Proof.
    intros Hc. unfold put_resources. destruct (w_err w) eqn:Ew. { intros [H _]. congruence. }
    cbv zeta. destruct (w_err (put_res_objects d w)) eqn:Ew2. { intros [H _]. congruence. }
    fold (before_dict d w). set (b := before_dict d w). intros Hok.
    destruct (put_encrypt_adds d (put_javascript d (out (bs "endobj") (out (bs ">>") (put_resource_dict d (out (bs "<<") (out (bs "2 0 obj") (set_off 2 (zlen (w_buf b)) b)))))))) as (oe & Ae & _).
    destruct (put_javascript_pushes d (out (bs "endobj") (out (bs ">>") (put_resource_dict d (out (bs "<<") (out (bs "2 0 obj") (set_off 2 (zlen (w_buf b)) b))))))) as (oj & Aj).
    destruct (put_resource_dict_pgrow d (out (bs "<<") (out (bs "2 0 obj") (set_off 2 (zlen (w_buf b)) b)))) as (t & W & _).
    apply (ad_ok _ _ _ Ae), (ad_ok _ _ _ Aj) in Hok. apply ok_out, ok_out, (wr_ok _ _ _ W), ok_out, ok_out, set_off_ok in Hok.
    unfold b, before_dict in Hok. apply put_imported_ok, put_tpls_ok, put_image_list_ok in Hok.
    destruct (put_res_objects_adds d w Hc Hok) as (_ & _ & _ & H). exact H.
  Qed.
  Lemma embed_fold_adds l : forall w, cipok w -> pushes w (fold_left (fun w p => embed d p w) l w).
  Proof.
    induction l as [|p l IH]; intros w Hc; [apply pushes_refl|]. cbn [fold_left].
    destruct (embed_adds d p w Hc) as (o & A & _). eapply pushes_trans; [exists o; exact A|]. apply IH. apply (ad_cip _ _ _ A Hc).
  Qed.
  Lemma put_pages_ok w : cipok w -> ok (put_pages d w) -> ok w.
  Proof.
    intros Hc. unfold put_pages. cbv zeta.
    destruct (put_page_list_adds d (doc_pages d) (if (zlen (d_pages d) <? d_page d) || alias_panics d then panic w else w) []) as (o & w' & R & A & _).
    { destruct (_ || _); exact Hc. }
    unfold doc_pages in R. rewrite R. intros H. do 7 apply ok_out in H. apply set_off_ok, (ad_ok _ _ _ A) in H.
    destruct (_ || _); [now apply ok_panic in H|exact H].
  Qed.
  Lemma put_pages_cip w : cipok w -> cipok (put_pages d w).
  Proof.
    intros Hc. unfold put_pages. cbv zeta.
    destruct (put_page_list_adds d (doc_pages d) (if (zlen (d_pages d) <? d_page d) || alias_panics d then panic w else w) []) as (o & w' & R & A & _).
    { destruct (_ || _); exact Hc. }
    unfold doc_pages in R. rewrite R. assert (Hc' : cipok w') by (apply (ad_cip _ _ _ A); destruct (_ || _); exact Hc).
    intros m st Em. change (w_cip (set_off 1 (zlen (w_buf w')) w') = Some (m, st)) in Em. rewrite set_off_cip in Em.
    change (m <= w_n (set_off 1 (zlen (w_buf w')) w')). rewrite set_off_n. eapply Hc'; eauto.
  Qed.

  Theorem enddoc_assembled pre :
    inputs_ok d -> ok (enddoc d (w_init pre)) ->
    exists os ps oa, assembled (pre +++ header) (enddoc d (w_init pre)) os ps oa.
  Proof.
    intros I. unfold enddoc. change (w_err (w_init pre)) with false. cbv iota zeta.
    rewrite attachments_fold.
    set (w1 := out (bs "%PDF-" +++ version2 d) (w_init pre)).
    assert (P1 : placed [] (pre +++ header) [] w1).
    { constructor.
      - change (pre +++ header = (pre +++ header) +++ []). now rewrite app_nil_r.
      - intros [|? ?] ? ? H; discriminate.
      - change (2 <= 2). lia.
      - left. split; reflexivity.
      - constructor.
      - constructor.
      - reflexivity. }
    assert (C1 : cipok w1) by (intros m st; discriminate).
    set (w2 := fold_left (fun w p => embed d p w) (used_atts d) w1).
    set (w3 := put_pages d w2). set (w4 := put_resources d w3).
    destruct (w_err w4) eqn:E4. { intros [H _]. congruence. }
    set (w5 := put_bookmarks d w4). set (w6 := put_xmp d w5). set (w7 := put_info_obj d w6). set (w8 := put_catalog_obj d w7).
    intros Hok.
    (* numbers: all these only grow, so the counter is at least 0 at the end *)
    assert (C1' := C1).
    (* objects after the resources do not depend on flags *)
    assert (Hok8 : ok w8).
    { unfold put_xref in Hok. cbv zeta in Hok. do 3 apply ok_out in Hok.
      apply (wr_ok _ _ _ (put_trailer_writes d _)), ok_out, ok_out in Hok.
      assert (G : forall k j w, ok (xref_lines j k w) -> ok w).
      { clear. induction k as [|k IH]; intros j w H; [exact H|]. cbn [xref_lines] in H. apply IH in H. destruct (at_ (w_offs w) j); [exact H|]. now apply ok_panic in H. }
      apply G in Hok. exact Hok. }
    destruct (put_catalog_full (out (bs "<<") (newobj w7))) as (tc & Wc & Tc & Oc & _).
    assert (A8 : adds w7 w8 [obj (w_n w7 + 1) (bs "<<" +++ nl +++ bs "/Type /Catalog" +++ nl +++ bs "/Pages 1 0 R" +++ nl +++ tc +++ bs ">>" +++ nl)]).
    { pose proof (writes_snoc _ _ _ (bs ">>") (writes_trans _ _ _ _ _ (writes_out (bs "<<") (newobj w7)) Wc)) as X.
      rewrite <- ?app_assoc in X. now apply adds_obj. }
    destruct (put_info_obj_adds d w6) as (ti & A7 & T7). fold w7 in A7, T7.
    pose proof (ad_ok _ _ _ A7 (ad_ok _ _ _ A8 Hok8)) as Hok6.
    assert (Hok4 : ok w4).
    { unfold w6, put_xmp in Hok6.
      assert (Hok5 : ok w5). { destruct (zlen (d_xmp d) =? 0); [exact Hok6|]. cbv zeta in Hok6. okm Hok6. }
      unfold w5, put_bookmarks in Hok5. destruct (zlen (d_outlines d) =? 0); [exact Hok5|].
      destruct (link_outlines _) as [nodes lru]. cbv zeta in Hok5. apply ok_out, ok_out, ok_out, ok_save, newobj_ok in Hok5.
      apply ok_fold in Hok5; [exact Hok5|]. intros [o x] v. unfold put_outline. destruct (textstr d (ou_text o) (newobj v)) as [t u] eqn:Et.
      intros H. cbv zeta in H. do 3 apply ok_out in H.
      pose proof (textstr_writes d (ou_text o) (newobj v)) as X. rewrite Et in X. apply newobj_ok, (wr_ok _ _ _ X). cbn [snd].
      destruct (on_prev x =? -1), (on_next x =? -1), (on_first x =? -1), (on_last x =? -1); exact H. }
    destruct (embed_fold_adds (used_atts d) w1 C1) as (oa0 & A2). fold w2 in A2.
    pose proof (ad_cip _ _ _ A2 C1) as C2. clear A2 oa0.
    assert (Hok3 : ok w3) by (apply put_resources_ok; [now apply put_pages_cip|exact Hok4]).
    assert (Hok2 : ok w2) by (apply put_pages_ok; assumption).
    destruct (embed_list d (used_atts d) w1 C1 (Z.le_refl 2) Hok2) as (ps & oa & A2 & AO & ND & HI & HA & HN1 & HN2). fold w2 in A2, HN1, HN2.
    pose proof (placed_adds _ _ _ _ _ _ P1 A2) as P2. cbn [app] in P2.
    assert (N2 : w_n w2 = 2 + 2 * zlen ps). { rewrite (ad_n _ _ _ A2), (att_objs_len d _ _ _ AO). reflexivity. }
    destruct (put_pages_placed d (pre +++ header) oa w2 P2 C2 Hok3) as (op & P3 & C3 & _ & D1 & D2 & N3 & PA & _). fold w3 in P3, C3, N3.
    destruct (put_resources_placed d (pre +++ header) _ w3 I P3 C3 Hok4) as (o1 & u & t2 & o3 & P4 & C4 & _ & RS & AX & TX & WX & HE & KX & JX & QX). fold w4 in P4, C4, HE, JX, QX.
    destruct (put_bookmarks_adds d w4 C4) as (o5 & A5 & OW & T5). fold w5 in A5, T5.
    pose proof (ad_cip _ _ _ A5 C4) as C5.
    destruct (put_xmp_adds d w5 C5) as (o6 & A6 & HX & T6). fold w6 in A6, T6.
    pose proof (placed_adds _ _ _ _ _ _ (placed_adds _ _ _ _ _ _ (placed_adds _ _ _ _ _ _ (placed_adds _ _ _ _ _ _ P4 A5) A6) A7) A8) as P8.
    pose proof (pl_n _ _ _ _ P8) as N8.
    assert (N7 : w_n w7 = w_n w6 + 1) by (rewrite (ad_n _ _ _ A7); reflexivity).
    assert (N8' : w_n w8 = w_n w7 + 1) by (rewrite (ad_n _ _ _ A8); reflexivity).
    destruct (put_xref_spec d w8 Hok) as (offs & L & HO & EB & _ & NF); [lia|].
    assert (N6 : 2 <= w_n w6).
    { pose proof (pl_n _ _ _ _ P4). pose proof (ad_n _ _ _ A5). pose proof (ad_n _ _ _ A6). pose proof (zlen_nonneg o5). pose proof (zlen_nonneg o6). lia. }
    set (OS := ((((((oa +++ op +++ [obj 1 (pages_body d (odd_from (w_n w2 + 1) (length (doc_pages d))) (tree_tail d))]) +++ o1) +++
        [obj 2 (bs "<<" +++ nl +++ t2 +++ bs ">>" +++ nl)] +++ o3) +++ o5) +++ o6) +++ [obj (w_n w6 + 1) ti]) +++
        [obj (w_n w7 + 1) (bs "<<" +++ nl +++ bs "/Type /Catalog" +++ nl +++ bs "/Pages 1 0 R" +++ nl +++ tc +++ bs ">>" +++ nl)]) in *.
    exists OS, ps, oa. constructor.
    - exists offs, (enc_ref d w8). rewrite NF. split; [exact L|]. split; [rewrite EB, (pl_buf _ _ _ _ P8); reflexivity|]. split.
      + intros a o c Eo. pose proof (pl_off _ _ _ _ P8 a o c Eo) as X. rewrite <- HO; [exact X|].
        assert (Hin : In o OS) by (rewrite Eo; apply in_or_app; right; now left).
        split; [|eapply placed_le; [exact P8|exact Hin]].
        apply (in_map fst) in Hin. eapply Permutation_in in Hin; [|exact (pl_nums _ _ _ _ P8)].
        apply in_app_or in Hin as [[<-|[<-|[]]]|Hin]; try lia. apply in_nums in Hin. lia.
      + unfold enc_ref. destruct (d_protect d) as [p|]; [|reflexivity]. destruct (HE p eq_refl) as (k & Hin & Hf).
        exists k. split.
        * f_equal. unfold saved.
          assert (T8 : w_tab w8 = w_tab w5). { unfold w8, put_catalog_obj. cbv zeta. rewrite !tab_out, Tc, tab_out, newobj_tab. congruence. }
          rewrite T8. destruct (d_outlines d) as [|x l] eqn:Eo.
          -- unfold w5, put_bookmarks. rewrite Eo. change (zlen (@nil (outline (e_num E))) =? 0) with true. cbv iota. now rewrite Hf.
          -- rewrite T5 by discriminate. cbn [find_slot slot_eqb]. now rewrite Hf.
        * unfold OS. do 4 (apply in_or_app; left). apply in_or_app. right. apply in_or_app. now right.
    - rewrite NF. pose proof (pl_nums _ _ _ _ P8) as X. eapply perm_trans; [exact X|].
      replace (Z.to_nat (w_n w8)) with (2 + Z.to_nat (w_n w8 - 2))%nat by lia. rewrite nums_app.
      apply Permutation_app; [|reflexivity]. cbn [nums]. change (1 + 1) with 2. apply perm_swap.
    - rewrite NF. lia.
    - exact (pl_closed _ _ _ _ P8).
    - split; [exact AO|]. split; [exact ND|]. split; [exact HI|]. split; [exact HA|]. unfold OS. eexists. rewrite <- ?app_assoc. reflexivity.
    - exists (w_tab w2). rewrite N2 in PA. replace (3 + 2 * zlen ps) with (2 + 2 * zlen ps + 1) by lia. split; [exact HN1|]. split; [exact HN2|].
      unfold OS. do 6 apply pages_at_app_l. apply pages_at_app_r, pages_at_app_l. exact PA.
    - rewrite N2 in PA. replace (3 + 2 * zlen ps) with (2 + 2 * zlen ps + 1) by lia. split.
      + exists (w_tab w2). unfold OS. do 6 apply pages_at_app_l. apply pages_at_app_r, pages_at_app_l. exact PA.
      + unfold OS. rewrite N2. do 6 (apply in_or_app; left). apply in_or_app. right. apply in_or_app. right. now left.
    - split; assumption.
    - unfold OS. do 5 apply resources_app_l. apply resources_app_r. exact RS.
    - eexists. unfold OS. do 4 (apply in_or_app; left). apply in_or_app. right. left. reflexivity.
    - intros H. unfold OS. do 2 apply holds_app_l. apply holds_app_r. auto.
    - exists (w_n w4 + 1). split.
      + intros Hne. destruct (OW Hne) as [H1 H2]. split.
        * intros i o x Ho Hx. destruct (H1 i o x Ho Hx) as (body & Hb & Ob). exists body. split; [|exact Ob].
          unfold OS. do 3 (apply in_or_app; left). apply in_or_app. now right.
        * unfold OS. do 3 (apply in_or_app; left). apply in_or_app. now right.
      + exists (tc +++ bs ">>" +++ nl). split; [rewrite NF, N8'; unfold OS; apply in_or_app; right; now left|].
        intros Hne. apply occurs_app_l. specialize (Oc Hne).
        replace (saved SOutl (out (bs "<<") (newobj w7))) with (w_n w4 + 1 + zlen (d_outlines d)) in Oc; [exact Oc|].
        unfold saved. rewrite tab_out, newobj_tab, T7, T6, (T5 Hne). reflexivity.
    - exists ti. rewrite NF, N8', N7. replace (w_n w6 + 1 + 1 - 1) with (w_n w6 + 1) by lia. unfold OS. apply in_or_app. left. apply in_or_app. right. now left.
    - exists w3, o1, u, t2. split; [exact (pl_n _ _ _ _ P3)|]. split; [exact (pl_len _ _ _ _ P3)|]. split; [exact C3|]. split; [exact KX|]. split; [exact AX|].
      split; [|split; [exact TX|split; [exact WX|]]].
      + intros x Hx. unfold OS. do 5 (apply in_or_app; left). apply in_or_app. now right.
      + unfold OS. do 4 (apply in_or_app; left). apply in_or_app. right. left. reflexivity.
    - assert (Q7 : forall s, s <> SOutl -> find_slot s (w_tab w7) = find_slot s (w_tab w4)).
      { intros s Hs. rewrite T7, T6. destruct (d_outlines d) as [|x l] eqn:Eo.
        - unfold w5, put_bookmarks. rewrite Eo. reflexivity.
        - rewrite T5 by discriminate. cbn [find_slot]. destruct (slot_eqb s SOutl) eqn:Es; [|reflexivity]. exfalso. apply Hs. destruct s; try discriminate Es; reflexivity. }
      eexists w2, o1, w6, ti, _, (w_n w4 + 1). cbv zeta. fold w3 w7 w8. rewrite NF, N8'.
      split; [exact C2|]. split; [exact HN1|]. split; [exact HN2|].
      split; [exact (pl_n _ _ _ _ P3)|]. split; [exact (pl_len _ _ _ _ P3)|]. split; [exact C3|]. split; [exact KX|]. split; [exact AX|].
      split. { intros x Hx. unfold OS. do 5 (apply in_or_app; left). apply in_or_app. now right. }
      replace (w_n w7 + 1 - 1) with (w_n w6 + 1) by lia.
      split; [exact A7|]. split. { unfold OS. apply in_or_app. left. apply in_or_app. right. now left. }
      split; [exact A8|]. split. { unfold OS. apply in_or_app. right. now left. }
      split. { apply (ad_cip _ _ _ A6 C5). }
      split; [|split; [|split]].
      + intros Hne. destruct (OW Hne) as [H1 H2]. split.
        * intros i o x Ho Hx. destruct (H1 i o x Ho Hx) as (body & Hb & Ob). exists body. split; [|exact Ob].
          unfold OS. do 3 (apply in_or_app; left). apply in_or_app. now right.
        * unfold OS. do 3 (apply in_or_app; left). apply in_or_app. now right.
      + intros Hne. unfold saved. rewrite T7, T6, (T5 Hne). reflexivity.
      + intros js Hj. destruct (JX js Hj) as (k & K1 & K2 & K3). exists k. unfold saved. rewrite Q7, K3 by discriminate.
        assert (G : forall x, In x o3 -> In x OS). { intros x Hx. unfold OS. do 4 (apply in_or_app; left). apply in_or_app. right. apply in_or_app. now right. }
        split; [now apply G|]. split; [now apply G|reflexivity].
      + intros s H1 H2 H3. rewrite Q7 by exact H3. now apply QX.
  Qed.
End File.
