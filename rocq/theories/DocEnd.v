(** JavaScript, encryption dictionary, bookmarks, metadata, catalog: the last
    objects of the file. *)
From Verif Require Import Base TextModel Crypto DocModel DocSpec DocProofs DocWalk DocParts DocRes DocRes2.
From Coq Require Import String Permutation.
Open Scope Z_scope.
Notation length := List.length.
Local Notation "a +++ b" := (List.app a b) (at level 60, right associativity, only parsing).

Section End_.
  Context {E : env} (d : doc (e_num E)).

  Lemma put_javascript_pushes w : pushes w (put_javascript d w).
  Proof.
    unfold put_javascript. destruct (d_js d) as [js|]; [|apply pushes_refl]. cbv zeta.
    destruct (textstr d js _) as [t v] eqn:Et.
    eapply pushes_obj; [|]. 2:{ do 2 apply grow_out. apply textstr_grow in Et. eapply grow_trans; [|exact Et]. do 2 apply grow_out. apply grow_refl. }
    eapply pushes_obj; [|gauto]. apply pushes_refl.
  Qed.

  Definition js_names (k : Z) : bytes := bs "<<" +++ nl +++ (bs "/Names [(EmbeddedJS) " +++ dec k +++ bs " 0 R]") +++ nl +++ bs ">>" +++ nl.
  Definition js_action (js : bytes) : bytes := bs "<<" +++ nl +++ bs "/S /JavaScript" +++ nl +++ (bs "/JS (" +++ escape js +++ bs ")") +++ nl +++ bs ">>" +++ nl.
  Lemma put_javascript_adds w : cipok w -> exists os, adds w (put_javascript d w) os /\
    (forall s, s <> SJs -> find_slot s (w_tab (put_javascript d w)) = find_slot s (w_tab w)) /\
    (forall js, d_js d = Some js -> os = [obj (w_n w + 1) (js_names (w_n w + 2)); obj (w_n w + 2) (js_action (cipher d (w_n w + 2) js))] /\
       find_slot SJs (w_tab (put_javascript d w)) = Some (w_n w + 1)).
  Proof.
    intros Hc. unfold put_javascript. destruct (d_js d) as [js|].
    2:{ exists []. split; [apply adds_refl|]. split; [reflexivity|discriminate]. }
    cbv zeta.
    set (w1 := out (bs "endobj") (out (bs ">>") (out _ (out (bs "<<") (save SJs (newobj w)))))).
    assert (A1 : adds w w1 [obj (w_n w + 1) (js_names (w_n w + 2))]).
    { apply adds_obj. unfold js_names. replace (w_n w + 2) with (w_n (out (bs "<<") (save SJs (newobj w))) + 1) by (change (w_n (newobj w) + 1 = w_n w + 2); rewrite newobj_n; lia).
      pose proof (writes_snoc _ _ _ (bs ">>") (writes_snoc _ _ _ (bs "/Names [(EmbeddedJS) " +++ dec (w_n (out (bs "<<") (save SJs (newobj w))) + 1) +++ bs " 0 R]") (writes_snoc _ _ _ (bs "<<") (writes_save SJs (newobj w))))) as H.
      cbn [app] in H. rewrite <- ?app_assoc in H. rewrite <- ?app_assoc. exact H. }
    assert (N1 : w_n w1 = w_n w + 1) by (rewrite (ad_n _ _ _ A1); reflexivity).
    assert (T1 : w_tab w1 = (SJs, w_n w + 1) :: w_tab w).
    { unfold w1. rewrite !tab_out. cbn [w_tab save set_tab]. now rewrite newobj_n, newobj_tab. }
    pose proof (ad_cip _ _ _ A1 Hc) as C1. clearbody w1.
    set (v := out (bs "/S /JavaScript") (out (bs "<<") (newobj w1))).
    assert (Fv : fresh v). { intros m st Em. unfold v in Em. change (w_cip (newobj w1) = Some (m, st)) in Em. rewrite newobj_cip in Em. apply C1 in Em. change (m < w_n (newobj w1)). rewrite newobj_n. lia. }
    assert (Nv : w_n v = w_n w + 2). { change (w_n (newobj w1) = w_n w + 2). rewrite newobj_n. lia. }
    pose proof (textstr_writes d js v) as Wt. pose proof (textstr_fresh d js v Fv) as Ft.
    assert (Tt : w_tab (snd (textstr d js v)) = w_tab w1). { unfold textstr, encrypt. destruct (d_protect d); [destruct (xor_stream _ _)|]; cbn [snd set_cip w_tab]; change (w_tab v) with (w_tab (newobj w1)); apply newobj_tab. }
    destruct (textstr d js v) as [t u]. cbn [fst snd] in *. subst t.
    assert (A2 : adds w1 (out (bs "endobj") (out (bs ">>") (out (bs "/JS " +++ bs "(" +++ escape (cipher d (w_n v) js) +++ bs ")") u))) [obj (w_n w + 2) (js_action (cipher d (w_n w + 2) js))]).
    { rewrite <- Nv at 2. replace (w_n w + 2) with (w_n w1 + 1) by lia. apply adds_obj. unfold js_action.
      pose proof (writes_snoc _ _ _ (bs ">>") (writes_snoc _ _ _ (bs "/JS " +++ bs "(" +++ escape (cipher d (w_n v) js) +++ bs ")") (writes_trans _ _ _ _ _ (writes_snoc _ _ _ (bs "/S /JavaScript") (writes_out (bs "<<") (newobj w1))) Wt))) as H.
      rewrite ?app_nil_r in H. rewrite <- ?app_assoc in H. rewrite <- ?app_assoc. exact H. }
    eexists. split; [eapply adds_trans; [exact A1|exact A2]|].
    rewrite !tab_out, Tt, T1. split.
    - intros s Hs. cbn [find_slot]. destruct (slot_eqb s SJs) eqn:Es; [|reflexivity]. exfalso. apply Hs. destruct s; try discriminate Es; reflexivity.
    - intros js' [= <-]. split; reflexivity.
  Qed.

  Definition enc_body (p : protect) : bytes :=
    bs "<<" +++ nl +++ bs "/Filter /Standard" +++ nl +++ bs "/V 1" +++ nl +++ bs "/R 2" +++ nl +++
    (bs "/O (" +++ escape (pr_o p) +++ bs ")") +++ nl +++ (bs "/U (" +++ escape (pr_u p) +++ bs ")") +++ nl +++
    (bs "/P " +++ dec (pr_p p)) +++ nl +++ bs ">>" +++ nl.
  Lemma put_encrypt_adds w : exists os, adds w (put_encrypt d w) os /\
    (d_protect d = None -> os = []) /\
    (forall p, d_protect d = Some p -> os = [obj (w_n w + 1) (enc_body p)] /\
       w_tab (put_encrypt d w) = (SEnc, w_n w + 1) :: w_tab w).
  Proof.
    unfold put_encrypt. destruct (d_protect d) as [p|].
    2:{ exists []. split; [apply adds_refl|]. split; [reflexivity|discriminate]. }
    cbv zeta.
    match goal with |- context [out (bs "endobj") ?x] => assert (W : writes (newobj w) x (enc_body p)) end.
    { pose proof (writes_snoc _ _ _ (bs "/R 2") (writes_snoc _ _ _ (bs "/V 1") (writes_snoc _ _ _ (bs "/Filter /Standard") (writes_snoc _ _ _ (bs "<<") (writes_save SEnc (newobj w)))))) as H.
      apply (writes_snoc _ _ _ (bs "/O (" +++ escape (pr_o p) +++ bs ")")) in H. apply (writes_snoc _ _ _ (bs "/U (" +++ escape (pr_u p) +++ bs ")")) in H.
      apply (writes_snoc _ _ _ (bs "/P " +++ dec (pr_p p))) in H. apply (writes_snoc _ _ _ (bs ">>")) in H.
      cbn [app] in H. rewrite <- ?app_assoc in H. unfold enc_body. rewrite <- ?app_assoc. exact H. }
    eexists. split; [apply adds_obj; exact W|]. split; [discriminate|].
    intros p' [= <-]. split; [reflexivity|].
    rewrite !tab_out. cbn [w_tab save set_tab]. now rewrite newobj_n, newobj_tab.
  Qed.
  Lemma writes_if w v s (c : bool) t : writes w v s -> writes w (if c then v else out t v) (s +++ (if c then [] else t +++ nl)).
  Proof. intros H. destruct c; [now rewrite app_nil_r|]. now apply writes_snoc. Qed.

  (** ** Bookmarks *)
  Definition ref_line (key : bytes) (n x : Z) : bytes :=
    if x =? -1 then [] else (key +++ dec (n + x) +++ bs " 0 R") +++ nl.
  Definition outline_links (n : Z) (x : onode) : bytes :=
    (bs "/Parent " +++ dec (n + on_parent x) +++ bs " 0 R") +++ nl +++
    ref_line (bs "/Prev ") n (on_prev x) +++ ref_line (bs "/Next ") n (on_next x) +++
    ref_line (bs "/First ") n (on_first x) +++ ref_line (bs "/Last ") n (on_last x).
  Definition outline_body (n : Z) (k : Z) (e : outline (e_num E) * onode) (body : bytes) : Prop :=
    exists t (y : e_num E), body = (bs "<</Title " +++ t) +++ nl +++ outline_links n (snd e) +++
      (bs "/Dest [" +++ dec (1 + 2 * ou_page (fst e)) +++ bs " 0 R /XYZ 0 " +++ e_fmt2 E y +++ bs " null]") +++ nl +++ bs "/Count 0>>" +++ nl
      /\ (forall w, fresh w -> w_n w = k -> t = fst (textstr d (ou_text (fst e)) w)).
  Lemma put_outline_adds n e w : cipok w -> exists body, adds w (put_outline d n e w) [obj (w_n w + 1) body] /\ outline_body n (w_n w + 1) e body.
  Proof.
    intros Hc. destruct e as [o x]. unfold put_outline. destruct (textstr d (ou_text o) (newobj w)) as [t v] eqn:Et.
    pose proof (textstr_writes d (ou_text o) (newobj w)) as W. rewrite Et in W. cbn [snd] in W.
    cbv zeta.
    assert (W1 := writes_snoc _ _ _ (bs "<</Title " +++ t) W).
    assert (W2 := writes_snoc _ _ _ (bs "/Parent " +++ dec (n + on_parent x) +++ bs " 0 R") W1).
    assert (W3 := writes_if _ _ _ (on_prev x =? -1) (bs "/Prev " +++ dec (n + on_prev x) +++ bs " 0 R") W2).
    assert (W4 := writes_if _ _ _ (on_next x =? -1) (bs "/Next " +++ dec (n + on_next x) +++ bs " 0 R") W3).
    assert (W5 := writes_if _ _ _ (on_first x =? -1) (bs "/First " +++ dec (n + on_first x) +++ bs " 0 R") W4).
    assert (W6 := writes_if _ _ _ (on_last x =? -1) (bs "/Last " +++ dec (n + on_last x) +++ bs " 0 R") W5).
    eexists. split.
    - apply adds_obj. apply writes_snoc. apply writes_snoc. exact W6.
    - exists t, (e_nmul E (e_nsub E (d_h d) (ou_y o)) (d_k d)). split.
      + cbn [app fst snd]. unfold outline_links, ref_line. rewrite <- ?app_assoc. reflexivity.
      + intros u Hu Hn. cbn [fst]. rewrite (textstr_fresh d _ u Hu), Hn.
        pose proof (textstr_fresh d (ou_text o) (newobj w)) as F. rewrite Et, newobj_n in F. cbn [fst] in F. apply F.
        now apply newobj_fresh.
  Qed.

  Lemma put_outline_list_adds n l w : cipok w ->
    exists os, adds w (fold_left (fun w e => put_outline d n e w) l w) os /\ zlen os = zlen l /\
      forall i e, nth_error l i = Some e -> exists body, nth_error os i = Some (obj (w_n w + 1 + Z.of_nat i) body) /\ outline_body n (w_n w + 1 + Z.of_nat i) e body.
  Proof.
    revert w. induction l as [|e l IH]; intros w Hc.
    - exists []. split; [apply adds_refl|]. split; [reflexivity|]. intros [|i] e H; discriminate.
    - cbn [fold_left]. destruct (put_outline_adds n e w Hc) as (body & A & B).
      destruct (IH (put_outline d n e w) (ad_cip _ _ _ A Hc)) as (os & A2 & N2 & H2).
      exists ([obj (w_n w + 1) body] +++ os). split; [eapply adds_trans; eauto|]. split; [cbn [app]; rewrite !zlen_cons; lia|].
      intros [|i] e' H.
      + injection H as <-. exists body. rewrite Z.add_0_r. split; [reflexivity|exact B].
      + cbn in H |- *. destruct (H2 i e' H) as (b' & Hb & Ob). exists b'.
        rewrite (ad_n _ _ _ A) in Hb, Ob. change (zlen [obj (w_n w + 1) body]) with 1 in Hb, Ob.
        replace (w_n w + 1 + Z.pos (Pos.of_succ_nat i)) with (w_n w + 1 + 1 + Z.of_nat i) by lia. now split.
  Qed.

  Definition outline_root (n last : Z) : bytes :=
    (bs "<</Type /Outlines /First " +++ dec n +++ bs " 0 R") +++ nl +++ (bs "/Last " +++ dec (n + last) +++ bs " 0 R>>") +++ nl.
  Definition outlines_written (n : Z) (os : list (Z * bytes)) : Prop :=
    d_outlines d <> [] ->
    let nodes := fst (link_outlines (map (@ou_level (e_num E)) (d_outlines d))) in
    let lru := snd (link_outlines (map (@ou_level (e_num E)) (d_outlines d))) in
    (forall i o x, nth_error (d_outlines d) i = Some o -> nth_error nodes i = Some x ->
       exists body, In (obj (n + Z.of_nat i) body) os /\ outline_body n (n + Z.of_nat i) (o, x) body) /\
    In (obj (n + zlen (d_outlines d)) (outline_root n (lru_get 0 lru))) os.

  Lemma link_loop_length nb i levels lru level ns : length (fst (link_loop nb i levels lru level ns)) = length ns.
  Proof.
    revert i lru level ns. induction levels as [|lv r IH]; intros; cbn [link_loop]; [reflexivity|]. rewrite IH.
    assert (U : forall j g l, length (upd j g l) = length l) by (intros; unfold upd; destruct (at_ l j); [apply set_nth_length|reflexivity]).
    destruct ((lv <=? level) && (0 <? i)); rewrite ?U; destruct (0 <? lv); rewrite ?U; try reflexivity; destruct (level <? lv); rewrite ?U; reflexivity.
  Qed.

  Lemma put_bookmarks_adds w : cipok w ->
    exists os, adds w (put_bookmarks d w) os /\ outlines_written (w_n w + 1) os /\
      (d_outlines d <> [] -> w_tab (put_bookmarks d w) = (SOutl, w_n w + 1 + zlen (d_outlines d)) :: w_tab w).
  Proof.
    intros Hc. unfold put_bookmarks. destruct (zlen (d_outlines d) =? 0) eqn:Ez.
    { exists []. split; [apply adds_refl|]. assert (d_outlines d = []). { destruct (d_outlines d); [reflexivity|]. rewrite zlen_cons in Ez. pose proof (zlen_nonneg l). lia. }
      split; [intros H'|intros H']; contradiction. }
    unfold outlines_written. destruct (link_outlines _) as [nodes lru] eqn:El. cbn [fst snd].
    destruct (put_outline_list_adds (w_n w + 1) (combine (d_outlines d) nodes) w Hc) as (os & A & N & H).
    assert (Hlen : length nodes = length (d_outlines d)).
    { unfold link_outlines in El. pose proof (f_equal (fun p => length (fst p)) El) as X. cbv beta in X. rewrite link_loop_length in X. cbn [fst] in X.
      rewrite repeat_length, map_length in X. now symmetry. }
    assert (Nl : zlen (combine (d_outlines d) nodes) = zlen (d_outlines d)) by (unfold zlen; rewrite combine_length; lia).
    assert (Ht : w_tab (fold_left (fun w0 e => put_outline d (w_n w + 1) e w0) (combine (d_outlines d) nodes) w) = w_tab w).
    { generalize (combine (d_outlines d) nodes) as l. intros l. clear. generalize (w_n w + 1) as n. intros n. revert w.
      induction l as [|[o x] l IH]; intros w; [reflexivity|]. cbn [fold_left]. rewrite IH. unfold put_outline.
      unfold textstr, encrypt. assert (G : forall (c : bool) v t, w_tab (if c then v else out t v) = w_tab v) by (intros []; reflexivity).
      destruct (d_protect d); [destruct (xor_stream _ _)|]; cbv zeta; rewrite !tab_out, !G, !tab_out; [change (w_tab (newobj w) = w_tab w)|]; apply newobj_tab. }
    set (v := fold_left _ (combine (d_outlines d) nodes) w) in *.
    assert (Hv : w_n v = w_n w + zlen (d_outlines d)) by (rewrite (ad_n _ _ _ A); lia).
    assert (W : writes (newobj v) (out (bs "/Last " +++ dec (w_n w + 1 + lru_get 0 lru) +++ bs " 0 R>>") (out (bs "<</Type /Outlines /First " +++ dec (w_n w + 1) +++ bs " 0 R") (save SOutl (newobj v)))) (outline_root (w_n w + 1) (lru_get 0 lru))).
    { pose proof (writes_snoc _ _ _ (bs "/Last " +++ dec (w_n w + 1 + lru_get 0 lru) +++ bs " 0 R>>") (writes_snoc _ _ _ (bs "<</Type /Outlines /First " +++ dec (w_n w + 1) +++ bs " 0 R") (writes_save SOutl (newobj v)))) as X.
      unfold outline_root. cbn [app] in X. rewrite <- ?app_assoc in X. rewrite <- ?app_assoc. exact X. }
    eexists. split; [eapply adds_trans; [exact A|apply adds_obj; exact W]|]. split.
    - intros _. cbv zeta. split.
      + intros i o x Ho Hx. destruct (H i (o, x)) as (body & Hb & Ob).
        { clear - Ho Hx. revert i nodes Ho Hx. induction (d_outlines d) as [|a l IH]; intros [|i] [|b nodes] Ho Hx; try discriminate; cbn in *; [congruence|eauto]. }
        exists body. split; [apply in_or_app; left; eapply nth_error_In; exact Hb|exact Ob].
      + apply in_or_app. right. left. f_equal. lia.
    - intros _. rewrite !tab_out. cbn [w_tab save set_tab]. rewrite newobj_n, newobj_tab, Ht, Hv. do 2 f_equal. lia.
  Qed.

  (** ** Metadata, information, catalog *)
  Lemma put_xmp_adds w : cipok w -> exists os, adds w (put_xmp d w) os /\ (d_xmp d <> [] -> holds d (d_xmp d) os) /\ w_tab (put_xmp d w) = w_tab w.
  Proof.
    intros Hc. unfold put_xmp. destruct (zlen (d_xmp d) =? 0) eqn:Ez.
    { exists []. split; [apply adds_refl|]. split; [|reflexivity]. intros H. destruct (d_xmp d); [contradiction|]. rewrite zlen_cons in Ez. pose proof (zlen_nonneg b). lia. }
    cbv zeta.
    destruct (adds_stream_obj d w (newobj w) (out (bs "<< /Type /Metadata /Subtype /XML /Length " +++ dec (zlen (d_xmp d)) +++ bs " >>") (newobj w))
       (bs "<< /Type /Metadata /Subtype /XML /Length " +++ dec (zlen (d_xmp d)) +++ bs " >>") (bs "<< /Type /Metadata /Subtype /XML ") (bs " >>") (d_xmp d)) as (body & A & S);
      [exact Hc|apply cgrow_refl|reflexivity|reflexivity|reflexivity|apply pgrow_refl|].
    eexists. split; [exact A|]. split.
    - intros _. eexists _, body. split; [now left|exact S].
    - rewrite tab_out, putstream_tab, tab_out. apply newobj_tab.
  Qed.

  Lemma info_line_grow a s b w w' : grow w w' -> grow w (info_line d a s b w').
  Proof.
    intros H. unfold info_line. destruct (b || _); [|exact H]. destruct (textstr d s w') as [t v] eqn:Et.
    apply grow_out. apply textstr_grow in Et. eapply grow_trans; eauto.
  Qed.
  Lemma info_line_tab a s b w : w_tab (info_line d a s b w) = w_tab w.
  Proof.
    unfold info_line. destruct (b || _); [|reflexivity]. unfold textstr, encrypt. destruct (d_protect d); [|reflexivity].
    now destruct (xor_stream _ _).
  Qed.
  Lemma put_info_obj_adds w : exists t, adds w (put_info_obj d w) [obj (w_n w + 1) t] /\ w_tab (put_info_obj d w) = w_tab w.
  Proof.
    unfold put_info_obj, put_info. cbv zeta.
    match goal with |- context [out (bs "endobj") ?x] => assert (G : grow (newobj w) x) end.
    { apply grow_out. do 8 apply info_line_grow. apply grow_out, grow_refl. }
    destruct G as [t G]. exists t. split; [now apply adds_obj|].
    rewrite !tab_out, !info_line_tab, tab_out. apply newobj_tab.
  Qed.

  Lemma put_catalog_grow w : exists t, writes w (put_catalog d w) ((bs "/Type /Catalog" +++ nl +++ bs "/Pages 1 0 R" +++ nl) +++ t).
  Proof.
    unfold put_catalog. cbv zeta.
    assert (W : writes w (out (bs "/Pages 1 0 R") (out (bs "/Type /Catalog") w)) (bs "/Type /Catalog" +++ nl +++ bs "/Pages 1 0 R" +++ nl)).
    { pose proof (writes_snoc _ _ _ (bs "/Pages 1 0 R") (writes_out (bs "/Type /Catalog") w)) as H. rewrite <- ?app_assoc in H. exact H. }
    set (v := out (bs "/Pages 1 0 R") (out (bs "/Type /Catalog") w)) in *.
    match goal with |- context [writes w ?x _] => assert (G : grow v x) end.
    { repeat match goal with
      | |- grow ?v ?v => apply grow_refl
      | |- grow _ (out _ _) => apply grow_out
      | |- grow _ (match ?x with _ => _ end) => destruct x
      end. }
    destruct G as [t G]. exists t. eapply writes_trans; eauto.
  Qed.
  Lemma put_catalog_obj_adds w : exists t, adds w (put_catalog_obj d w)
    [obj (w_n w + 1) (bs "<<" +++ nl +++ bs "/Type /Catalog" +++ nl +++ bs "/Pages 1 0 R" +++ nl +++ t)].
  Proof.
    unfold put_catalog_obj. cbv zeta. destruct (put_catalog_grow (out (bs "<<") (newobj w))) as (t & W).
    exists (t +++ bs ">>" +++ nl).
    pose proof (writes_snoc _ _ _ (bs ">>") (writes_trans _ _ _ _ _ (writes_out (bs "<<") (newobj w)) W)) as X.
    rewrite <- ?app_assoc in X. now apply adds_obj.
  Qed.
End End_.
