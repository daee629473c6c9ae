(** The whole file: where enddoc puts every object. *)
From Verif Require Import Base TextModel Crypto DocModel DocSpec DocProofs DocWalk DocParts DocRes DocRes2 DocEnd DocXref.
From Coq Require Import String Permutation.
Open Scope Z_scope.
Notation length := List.length.
Local Notation "a +++ b" := (List.app a b) (at level 60, right associativity, only parsing).

(** ** Objects in place *)
Record placed (sp : list Z) (pre : bytes) (os : list (Z * bytes)) (w : wst) : Prop := {
  pl_buf : w_buf w = pre +++ render os;
  pl_off : forall a o c, os = a +++ o :: c -> at_ (w_offs w) (fst o) = Some (zlen (pre +++ render a));
  pl_n : 2 <= w_n w;
  pl_len : lenok w;
  pl_closed : Forall closed os;
  pl_sp : Forall (fun k => k = 1 \/ k = 2) sp;
  pl_nums : Permutation (map fst os) (sp +++ nums 3 (Z.to_nat (w_n w - 2))) }.

Lemma placed_le sp pre os w o : placed sp pre os w -> In o os -> fst o <= w_n w.
Proof.
  intros [] Hin. apply (in_map fst) in Hin. eapply Permutation_in in Hin; [|exact pl_nums0].
  apply in_app_or in Hin as [Hin|Hin].
  - rewrite Forall_forall in pl_sp0. apply pl_sp0 in Hin. lia.
  - apply in_nums in Hin. lia.
Qed.
Lemma placed_adds sp pre os w w' os' : placed sp pre os w -> adds w w' os' -> placed sp pre (os +++ os') w'.
Proof.
  intros P A. pose proof P as P'. destruct P'. pose proof A as A'. destruct A'. pose proof (zlen_nonneg os') as Hz. constructor.
  - rewrite ad_buf, pl_buf0, render_app. now rewrite app_assoc.
  - intros a o c Eo. apply split_cases in Eo as [(c' & -> & ->)|(a' & -> & ->)].
    + apply ad_old; auto.
      * eapply placed_le; [exact P|]. apply in_or_app. right. now left.
      * eapply pl_off0. reflexivity.
    + rewrite render_app, app_assoc, <- pl_buf0. eapply ad_new; auto.
  - lia.
  - auto.
  - apply Forall_app. now split.
  - exact pl_sp0.
  - rewrite map_app, ad_nums, ad_n.
    replace (Z.to_nat (w_n w + zlen os' - 2)) with (Z.to_nat (w_n w - 2) + length os')%nat by (unfold zlen in *; lia).
    rewrite nums_app, app_assoc. apply Permutation_app; [exact pl_nums0|].
    replace (3 + Z.of_nat (Z.to_nat (w_n w - 2))) with (w_n w + 1) by lia. reflexivity.
Qed.

Lemma placed_special k sp pre os w w2 body :
  placed sp pre os w -> k = 1 \/ k = 2 -> ~ In k sp -> ok w2 ->
  writes (out (dec k +++ bs " 0 obj") (set_off k (zlen (w_buf w)) w)) w2 body ->
  placed (k :: sp) pre (os +++ [obj k body]) (out (bs "endobj") w2).
Proof.
  intros P Hk Hnin Hok W. destruct P. pose proof (wr_ok _ _ _ W Hok) as Hok1. apply ok_out in Hok1.
  unfold set_off in W, Hok1. destruct ((0 <=? k) && (k <? zlen (w_offs w))) eqn:Eb.
  2:{ now apply ok_panic in Hok1. }
  assert (Hk2 : (Z.to_nat k < length (w_offs w))%nat) by (unfold zlen in Eb; lia).
  pose proof (wr_n _ _ _ W) as Hn. rewrite n_out in Hn. change (w_n w2 = w_n w) in Hn.
  pose proof (wr_offs _ _ _ W) as Ho. change (w_offs w2 = set_nth (Z.to_nat k) (zlen (w_buf w)) (w_offs w)) in Ho.
  pose proof (wr_buf _ _ _ W) as Hb. change (w_buf w2 = (w_buf w +++ (dec k +++ bs " 0 obj") +++ nl) +++ body) in Hb.
  assert (Nk : ~ In k (map fst os)).
  { intros Hin. eapply Permutation_in in Hin; [|exact pl_nums0]. apply in_app_or in Hin as [Hin|Hin]; [easy|]. apply in_nums in Hin. lia. }
  assert (Hlo : zlen (w_offs w) = w_n w + 1).
  { destruct pl_len0 as [[El _]|El]; [|exact El]. rewrite El in Hk2. cbn in Hk2. lia. }
  constructor.
  - change (w_buf w2 +++ bs "endobj" +++ nl = pre +++ render (os +++ [obj k body])). rewrite Hb, pl_buf0, render_app.
    unfold render at 3. unfold objtext, obj. cbn [map List.concat fst snd]. rewrite app_nil_r, <- ?app_assoc. reflexivity.
  - change (w_offs (out (bs "endobj") w2)) with (w_offs w2). rewrite Ho.
    intros a o c Eo. apply split_cases in Eo as [(c' & -> & ->)|(a' & -> & Eo)].
    + unfold at_. specialize (pl_off0 a o c' eq_refl). unfold at_ in pl_off0.
      destruct (fst o <? 0) eqn:E0; [easy|]. rewrite nth_set_nth_other; [exact pl_off0|].
      intros Hx. apply Nk. assert (k = fst o) by lia. subst k. apply in_map, in_or_app. right. now left.
    + destruct a' as [|? a']; [|destruct a'; discriminate]. injection Eo as <- <-. rewrite app_nil_r. cbn [fst obj].
      unfold at_. replace (k <? 0) with false by lia. rewrite nth_set_nth_same by exact Hk2. now rewrite pl_buf0.
  - change (2 <= w_n w2). lia.
  - right. change (zlen (w_offs w2) = w_n w2 + 1). rewrite Ho, Hn. unfold zlen. rewrite set_nth_length. exact Hlo.
  - apply Forall_app. split; [exact pl_closed0|]. constructor; [apply closed_obj|constructor].
  - constructor; [exact Hk|exact pl_sp0].
  - change (w_n (out (bs "endobj") w2)) with (w_n w2). rewrite map_app, Hn. cbn [map fst obj app].
    eapply perm_trans; [apply Permutation_app_comm|]. cbn [app]. now constructor.
Qed.
Lemma set_off_tab k v w : w_tab (set_off k v w) = w_tab w.
Proof. unfold set_off. now destruct (_ && _). Qed.
Lemma set_off_cip k v w : w_cip (set_off k v w) = w_cip w.
Proof. unfold set_off. now destruct (_ && _). Qed.
Lemma set_off_n k v w : w_n (set_off k v w) = w_n w.
Proof. unfold set_off. now destruct (_ && _). Qed.
Lemma set_off_ok k v w : ok (set_off k v w) -> ok w.
Proof. unfold set_off. destruct (_ && _); [auto|]. intros H. now apply ok_panic in H. Qed.

Section Layout.
  Context {E : env} (d : doc (e_num E)).

  (** ** Attachments *)
  Definition att_pair (k p : Z) (o : list (Z * bytes)) : Prop :=
    exists a b1 b2, at_ (d_atts d) p = Some a /\ o = [obj k b1; obj (k + 1) b2] /\
      (stream_body b1 (cipher d k (e_zlib E (at_content a))) /\ occurs (file_params (E:=E) (at_content a)) b1 /\ att_exact d k a b1 b2) /\ occurs (bs "/EF << /F " +++ dec k +++ bs " 0 R >>") b2.
  Fixpoint att_objs (k : Z) (ps : list Z) (os : list (Z * bytes)) : Prop :=
    match ps with
    | [] => os = []
    | p :: ps' => exists o os', os = o +++ os' /\ att_pair k p o /\ att_objs (k + 2) ps' os'
    end.
  Lemma att_objs_len ps : forall k os, att_objs k ps os -> zlen os = 2 * zlen ps.
  Proof.
    induction ps as [|p ps IH]; intros k os H.
    - cbn in H. now subst.
    - destruct H as (o & os' & -> & (a & b1 & b2 & _ & -> & _) & H). apply IH in H. cbn [app]. rewrite !zlen_cons. lia.
  Qed.

  Lemma att_num_step p v w w' q : w_tab w' = (SAtt p, v) :: w_tab w -> att_num d q w' = if q =? p then v else att_num d q w.
  Proof. intros H. unfold att_num. rewrite H. cbn [find_slot slot_eqb]. now destruct (q =? p). Qed.

  Lemma embed_list l : forall w, cipok w -> 2 <= w_n w -> ok (fold_left (fun w p => embed d p w) l w) ->
    exists ps os, adds w (fold_left (fun w p => embed d p w) l w) os /\ att_objs (w_n w + 1) ps os /\ NoDup ps /\
      (forall p, In p ps <-> In p l /\ att_num d p w = 0) /\
      (forall p, In p l -> at_ (d_atts d) p <> None) /\
      (forall i p, nth_error ps i = Some p -> att_num d p (fold_left (fun w p => embed d p w) l w) = w_n w + 2 + 2 * Z.of_nat i) /\
      (forall p, ~ In p ps -> att_num d p (fold_left (fun w p => embed d p w) l w) = att_num d p w).
  Proof.
    induction l as [|q l IH]; intros w Hc Hn Hok.
    - exists [], []. split; [apply adds_refl|]. split; [reflexivity|]. split; [constructor|]. split; [cbn; tauto|]. split; [easy|].
      split; [|auto]. intros [|i] p H; discriminate.
    - cbn [fold_left] in *.
      destruct (embed_adds d q w Hc) as (o1 & A1 & H1).
      assert (Hok1 : ok (embed d q w)).
      { eapply ok_fold; [|exact Hok]. intros x v. unfold embed. destruct (at_ (d_atts d) x); [|intros H; now apply ok_panic in H].
        destruct (negb _); [auto|]. cbv zeta. destruct (textstr16 d (at_name a) _) as [t1 v1] eqn:E1. destruct (textstr16 d (at_desc a) v1) as [t2 v2] eqn:E2.
        intros H. apply ok_save, ok_out, ok_out in H. 
        pose proof (textstr16_writes d (at_desc a) v1) as X2. rewrite E2 in X2. apply (wr_ok _ _ _ X2) in H.
        pose proof (textstr16_writes d (at_name a) (newobj (write_file d (at_content a) v))) as X1. rewrite E1 in X1. apply (wr_ok _ _ _ X1), newobj_ok in H.
        unfold write_file in H. okm H. }
      destruct (H1 Hok1) as (a & Ea & [(Hne & -> & Ew)|(Hz & b1 & b2 & -> & S1 & O2 & Tb)]).
      + rewrite Ew in *. destruct (IH w Hc Hn Hok) as (ps & os & A & AO & ND & HI & HA & HN & HO).
        exists ps, os. do 3 (split; [assumption|]). split; [|split; [|split; assumption]].
        * intros p. rewrite HI. cbn [In]. split; [intuition|]. intros [[->|Hp] Hz]; [contradiction|auto].
        * intros p [<-|Hp]; [congruence|auto].
      + set (w1 := embed d q w) in *.
        assert (N1 : w_n w1 = w_n w + 2) by (rewrite (ad_n _ _ _ A1); reflexivity).
        pose proof (fun p => att_num_step q _ w w1 p Tb) as AN.
        destruct (IH w1) as (ps & os & A & AO & ND & HI & HA & HN & HO); [apply (ad_cip _ _ _ A1 Hc)|lia|exact Hok|].
        assert (Nq : ~ In q ps). { intros Hq. apply HI in Hq as [_ Hq]. rewrite AN, Z.eqb_refl in Hq. lia. }
        exists (q :: ps), ([obj (w_n w + 1) b1; obj (w_n w + 2) b2] +++ os).
        split; [eapply adds_trans; [exact A1|exact A]|].
        split; [|split; [now constructor|split; [|split; [|split]]]].
        * exists [obj (w_n w + 1) b1; obj (w_n w + 2) b2], os. split; [reflexivity|]. split.
          -- exists a, b1, b2. split; [exact Ea|]. split; [|split; [exact S1|exact O2]]. do 3 f_equal. lia.
          -- rewrite N1 in AO. now replace (w_n w + 1 + 2) with (w_n w + 2 + 1) by lia.
        * intros p. cbn [In]. rewrite HI, AN. destruct (p =? q) eqn:Epq.
          -- apply Z.eqb_eq in Epq. subst p. split; [intros _; auto|]. intros _. now left.
          -- apply Z.eqb_neq in Epq. split; [intros [->|[? ?]]; [contradiction|auto]|intros [[->|?] ?]; [contradiction|auto]].
        * intros p [<-|Hp]; [congruence|auto].
        * intros [|i] p Hp.
          -- injection Hp as <-. rewrite HO by exact Nq. rewrite AN, Z.eqb_refl. lia.
          -- cbn [nth_error] in Hp. rewrite (HN i p Hp). lia.
        * intros p Hp. cbn [In] in Hp. rewrite HO by tauto. rewrite AN. replace (p =? q) with false by (symmetry; apply Z.eqb_neq; intros ->; tauto). reflexivity.
  Qed.

  (** pointers of the attachments used by the document *)
  Definition used_atts : list Z := d_docatts d +++ List.concat (map (fun pg => map (@an_att (e_num E)) (pg_annots pg)) (d_pages d)).
  Lemma attachments_fold w : put_annot_attachments d (put_attachments d w) = fold_left (fun w p => embed d p w) used_atts w.
  Proof. unfold put_annot_attachments, put_attachments, used_atts. now rewrite fold_left_app. Qed.

  (** ** Page tree *)
  Definition pages_body (kids : list Z) (t : bytes) : bytes :=
    bs "<</Type /Pages" +++ nl +++ bs "/Kids [" +++ kids_text kids +++ bs "]" +++ nl +++ (bs "/Count " +++ dec (d_page d)) +++ nl +++ t.
  (** the size of the pages that have none of their own *)
  Definition tree_tail : bytes := (bs "/MediaBox [0 0 " +++ e_fmt2 E (d_defw d) +++ bs " " +++ e_fmt2 E (d_defh d) +++ bs "]") +++ nl +++ bs ">>" +++ nl.
  Definition doc_pages : list (page (e_num E)) := firstn (Z.to_nat (d_page d)) (d_pages d).

  Definition pages_at (tab : list (slot * Z)) (k : Z) (os : list (Z * bytes)) : Prop :=
    forall i pg, nth_error doc_pages i = Some pg ->
      exists a o c, os = a +++ o +++ c /\ page_objs d tab True pg (k + 2 * Z.of_nat i) o.

  Lemma put_pages_placed pre os w :
    placed [] pre os w -> cipok w -> ok (put_pages d w) ->
    exists os', placed [1] pre (os +++ os' +++ [obj 1 (pages_body (odd_from (w_n w + 1) (length doc_pages)) tree_tail)]) (put_pages d w) /\
      cipok (put_pages d w) /\ ok w /\ d_page d <= zlen (d_pages d) /\ alias_panics d = false /\
      w_n (put_pages d w) = w_n w + 2 * zlen doc_pages /\ pages_at (w_tab w) (w_n w + 1) os' /\ newtab w (put_pages d w).
  Proof.
    intros P Hc. unfold put_pages. cbv zeta.
    destruct ((zlen (d_pages d) <? d_page d) || alias_panics d) eqn:Eb.
    { destruct (put_page_list d _ (panic w) []) as [w1 kids] eqn:El. intros Hok. exfalso.
      destruct (put_page_list_adds d doc_pages (panic w) []) as (o & w' & R & A & _).
      { exact Hc. }
      unfold doc_pages in R. rewrite R in El. injection El as -> <-.
      do 7 apply ok_out in Hok. apply set_off_ok in Hok. apply (ad_ok _ _ _ A) in Hok. now apply ok_panic in Hok. }
    apply orb_false_elim in Eb as [Eb1 Eb2].
    destruct (put_page_list_adds d doc_pages w [] Hc) as (o & w' & R & A & N & H).
    fold doc_pages. rewrite R. cbn [app]. intros Hok.
    set (kids := odd_from (w_n w + 1) (length doc_pages)) in *.
    pose proof (placed_adds _ _ _ _ _ _ P A) as P1.
    set (u := out (bs "1 0 obj") (set_off 1 (zlen (w_buf w')) w')) in *.
    assert (W : writes u (out (bs ">>") (out (bs "/MediaBox [0 0 " +++ e_fmt2 E (d_defw d) +++ bs " " +++ e_fmt2 E (d_defh d) +++ bs "]")
       (out (bs "/Count " +++ dec (d_page d)) (out (bs "/Kids [" +++ kids_text kids +++ bs "]") (out (bs "<</Type /Pages") u)))))
       (pages_body kids ((bs "/MediaBox [0 0 " +++ e_fmt2 E (d_defw d) +++ bs " " +++ e_fmt2 E (d_defh d) +++ bs "]") +++ nl +++ bs ">>" +++ nl))).
    { pose proof (writes_snoc _ _ _ (bs ">>") (writes_snoc _ _ _ (bs "/MediaBox [0 0 " +++ e_fmt2 E (d_defw d) +++ bs " " +++ e_fmt2 E (d_defh d) +++ bs "]")
        (writes_snoc _ _ _ (bs "/Count " +++ dec (d_page d)) (writes_snoc _ _ _ (bs "/Kids [" +++ kids_text kids +++ bs "]") (writes_out (bs "<</Type /Pages") u))))) as X.
      unfold pages_body. rewrite <- ?app_assoc in X. rewrite <- ?app_assoc. exact X. }
    set (v := out (bs ">>") _) in *.
    assert (Hv : ok v) by exact Hok.
    pose proof (placed_special 1 [] pre (os +++ o) w' v _ P1 (or_introl eq_refl) (fun H => H) Hv W) as P2.
    assert (Hok' : ok w'). { apply (wr_ok _ _ _ W), ok_out, set_off_ok in Hv. exact Hv. }
    exists o. split; [rewrite <- app_assoc in P2; exact P2|].
    split.
    { intros m st Em. change (w_cip u = Some (m, st)) in Em. unfold u in Em. change (w_cip (set_off 1 (zlen (w_buf w')) w') = Some (m, st)) in Em.
      rewrite set_off_cip in Em. apply (ad_cip _ _ _ A Hc) in Em. change (m <= w_n (set_off 1 (zlen (w_buf w')) w')). now rewrite set_off_n. }
    split; [apply (ad_ok _ _ _ A Hok')|]. split; [lia|]. split; [exact Eb2|]. split; [|split].
    - change (w_n (set_off 1 (zlen (w_buf w')) w') = w_n w + 2 * zlen doc_pages). now rewrite set_off_n.
    - intros i pg Hi. destruct (H i pg Hi) as (a & o' & c & Eo & t1 & b1 & Q1 & Q2 & Q3 & Q4 & Q5). exists a, o', c. split; [exact Eo|].
      exists t1, b1. repeat (split; [now auto|]). exact Q5.
    - destruct (ad_tab _ _ _ A Hok' (pl_n _ _ _ _ P)) as (ts & Et & F). exists ts. split.
      + change (w_tab (set_off 1 (zlen (w_buf w')) w') = ts +++ w_tab w). now rewrite set_off_tab.
      + change (Forall (fun e => 2 < snd e <= w_n (set_off 1 (zlen (w_buf w')) w')) ts). now rewrite set_off_n.
  Qed.

  (** ** Resources *)
  Lemma ok_iteri {A} (f : Z -> A -> wst -> wst) l : (forall j x v, ok (f j x v) -> ok v) -> forall j w, ok (iteri f j l w) -> ok w.
  Proof. intros H. induction l as [|x l IH]; intros j w; [auto|]. cbn. eauto. Qed.
  Lemma pushes_ok w w' : pushes w w' -> ok w' -> ok w.
  Proof. intros [os A]. apply (ad_ok _ _ _ A). Qed.

  Lemma put_res_objects_adds w : cipok w -> ok (put_res_objects d w) ->
    exists os, adds w (put_res_objects d w) os /\ fonts_held d os /\ ok w.
  Proof.
    intros Hc. unfold put_res_objects. cbv zeta. intros Hok.
    match goal with H : ok (put_fonts d ?x) |- _ => set (v := x) in * end.
    assert (P : pushes w v).
    { unfold v. apply pushes_fold; [intros; apply put_spot_pushes|]. apply pushes_iteri; [intros; apply put_grad_pushes|].
      apply pushes_iteri; [intros; apply put_blend_pushes|]. apply pushes_iteri; [intros; apply put_layer_pushes|]. apply pushes_refl. }
    destruct (put_fonts_adds d v) as (o2 & A2 & H2); [eapply pushes_cip; eauto|exact Hok|].
    pose proof (put_fonts_ok d v Hok) as Hv. destruct P as [o1 A1].
    exists (o1 +++ o2). split; [eapply adds_trans; eauto|]. split; [|apply (ad_ok _ _ _ A1 Hv)].
    destruct H2 as [F1 F2]. split.
    - intros e He Hu. destruct (F1 e He Hu) as (c & Ec & Hh). exists c. split; [exact Ec|]. now apply holds_app_r.
    - intros e He Hu. rewrite <- (app_nil_r o2). apply utf8_streams_mono. auto.
  Qed.

  Lemma put_image_ok im w : ok (put_image d im w) -> ok w.
  Proof.
    unfold put_image. cbv zeta. intros H.
    assert (Gi : forall im v, ok (image_dict d im v) -> ok v).
    { intros i v Hv. unfold image_dict in Hv. okm Hv. }
    destruct (beqb (im_cs im) (bs "Indexed")).
    - apply ok_out in H. destruct (d_compress d); apply putstream_ok, ok_out, newobj_ok in H;
        (destruct (im_smask im) as [[|c m]|]; [|apply ok_out, Gi, newobj_ok in H|]); apply ok_out, Gi, ok_save, newobj_ok in H; exact H.
    - (destruct (im_smask im) as [[|c m]|]; [|apply ok_out, Gi, newobj_ok in H|]); apply ok_out, Gi, ok_save, newobj_ok in H; exact H.
  Qed.
  Lemma put_image_list_ok l : forall ins w, ok (put_image_list d l ins w) -> ok w.
  Proof.
    induction l as [|[k im] l IH]; intros ins w; [auto|]. cbn [put_image_list]. destruct (assoc _ _).
    - intros H. apply IH in H. exact H.
    - cbv zeta. intros H. apply IH in H. now apply put_image_ok in H.
  Qed.

  Lemma put_resource_dict_pgrow w : pgrow w (put_resource_dict d w).
  Proof.
    unfold put_resource_dict, put_xobjects. cbv zeta.
    repeat match goal with
    | |- pgrow ?v ?v => apply pgrow_refl
    | |- pgrow _ (out _ _) => apply pgrow_out
    | |- pgrow _ (fold_left _ _ _) => apply pgrow_fold; [intros|]
    | |- pgrow _ (iteri _ _ _ _) => apply pgrow_iteri; [intros|]
    | |- pgrow _ (match ?x with _ => _ end) => destruct x
    end.
  Qed.
  Definition same_tab (w v : wst) : Prop := w_tab v = w_tab w.
  Lemma same_tab_out w v x : same_tab w v -> same_tab w (out x v).
  Proof. intros H. exact H. Qed.
  Lemma same_tab_fold {A} (f : wst -> A -> wst) l w : forall v, (forall x v, same_tab w v -> same_tab w (f v x)) -> same_tab w v -> same_tab w (fold_left f l v).
  Proof. induction l as [|x l IH]; intros v H Hv; [exact Hv|]. cbn [fold_left]. apply IH; [exact H|]. now apply H. Qed.
  Lemma same_tab_iteri {A} (f : Z -> A -> wst -> wst) l w : forall j v, (forall j x v, same_tab w v -> same_tab w (f j x v)) -> same_tab w v -> same_tab w (iteri f j l v).
  Proof. induction l as [|x l IH]; intros j v H Hv; [exact Hv|]. cbn [iteri]. apply IH; [exact H|]. now apply H. Qed.
  Lemma put_resource_dict_tab w : w_tab (put_resource_dict d w) = w_tab w.
  Proof.
    change (same_tab w (put_resource_dict d w)). unfold put_resource_dict, put_xobjects. cbv zeta.
    repeat match goal with
    | |- same_tab ?v ?v => reflexivity
    | H : same_tab ?v ?w |- same_tab ?v ?w => exact H
    | |- same_tab _ (out _ _) => apply same_tab_out
    | |- same_tab _ (fold_left _ _ _) => apply same_tab_fold; [intros|]
    | |- same_tab _ (iteri _ _ _ _) => apply same_tab_iteri; [intros|]
    | |- same_tab _ (match ?x with _ => _ end) => destruct x
    end.
  Qed.

  (** sufficient conditions on what the parsers and importers produce *)
  Record inputs_ok : Prop := {
    in_img : forall e, In e (img_list d) -> image_clean (snd e);
    in_tpl : forall t, In t (sort_tpls d) -> tpl_clean d t;
    in_fmt : fmt_clean (E := E);
    in_font : font_ids_clean d;
    in_imp : forall e, In e (e_shuffle E 10 _ (d_impobjs d)) -> imported_closed e;
    in_shuf : forall l : list (Z * bytes), Permutation (e_shuffle E 11 _ l) l }.

  Record resources (os : list (Z * bytes)) : Prop := {
    rs_fonts : fonts_held d os;
    rs_images : forall e, In e (img_list d) -> exists e', In e' (img_list d) /\ im_id (snd e') = im_id (snd e) /\ image_streams d (snd e') os;
    rs_tpls : exists k, forall i t, nth_error (sort_tpls d) i = Some t -> exists body, In (obj (k + Z.of_nat i) body) os /\ stream_body body (cipher d (k + Z.of_nat i) (tpl_data d t)) }.
  Lemma fonts_held_mono a b c : fonts_held d b -> fonts_held d (a +++ b +++ c).
  Proof.
    intros [F1 F2]. split.
    - intros e He Hu. destruct (F1 e He Hu) as (co & Ec & Hh). exists co. split; [exact Ec|]. now apply holds_mono.
    - intros e He Hu. apply utf8_streams_mono. auto.
  Qed.
  Lemma resources_mono a b c : resources b -> resources (a +++ b +++ c).
  Proof.
    intros []. constructor.
    - now apply fonts_held_mono.
    - intros e He. destruct (rs_images0 e He) as (e' & H1 & H2 & H3). exists e'. split; [exact H1|]. split; [exact H2|]. now apply image_streams_mono.
    - destruct rs_tpls0 as (k & H). exists k. intros i t Hi. destruct (H i t Hi) as (body & Hb & Sb). exists body. split; [|exact Sb].
      apply in_or_app. right. apply in_or_app. now left.
  Qed.

  Definition before_dict (w : wst) : wst := put_imported d (put_tpls d (put_images d (put_res_objects d w))).
  Lemma put_resources_placed pre os w :
    inputs_ok -> placed [1] pre os w -> cipok w -> ok (put_resources d w) ->
    exists o1 u t o3, placed [2; 1] pre ((os +++ o1) +++ [obj 2 (bs "<<" +++ nl +++ t +++ bs ">>" +++ nl)] +++ o3) (put_resources d w) /\
      cipok (put_resources d w) /\ ok w /\ resources o1 /\
      adds w (before_dict w) o1 /\ w_tab u = w_tab (before_dict w) /\ writes u (put_resource_dict d u) t /\
      (forall p, d_protect d = Some p -> exists k, In (obj k (enc_body p)) o3 /\
          find_slot SEnc (w_tab (put_resources d w)) = Some k) /\ ok (before_dict w) /\
      (forall js, d_js d = Some js -> exists k, In (obj k (js_names (k + 1))) o3 /\ In (obj (k + 1) (js_action (cipher d (k + 1) js))) o3 /\
          find_slot SJs (w_tab (put_resources d w)) = Some k) /\
      (forall s, s <> SJs -> s <> SEnc -> find_slot s (w_tab (put_resources d w)) = find_slot s (w_tab (before_dict w))).
  Proof.
    intros I P Hc. unfold put_resources. destruct (w_err w) eqn:Ew. { intros [H _]. congruence. }
    cbv zeta. destruct (w_err (put_res_objects d w)) eqn:Ew2. { intros [H _]. congruence. }
    fold (before_dict w). intros Hok.
    set (b := before_dict w) in *.
    destruct (put_encrypt_adds d (put_javascript d (out (bs "endobj") (out (bs ">>") (put_resource_dict d (out (bs "<<") (out (bs "2 0 obj") (set_off 2 (zlen (w_buf b)) b)))))))) as (oe & Ae & He0 & He).
    destruct (put_javascript_pushes d (out (bs "endobj") (out (bs ">>") (put_resource_dict d (out (bs "<<") (out (bs "2 0 obj") (set_off 2 (zlen (w_buf b)) b))))))) as (oj & Aj).
    set (u := out (bs "<<") (out (bs "2 0 obj") (set_off 2 (zlen (w_buf b)) b))) in *.
    destruct (put_resource_dict_pgrow u) as (t & W & Wc).
    set (v := out (bs ">>") (put_resource_dict d u)) in *.
    pose proof (ad_ok _ _ _ Aj (ad_ok _ _ _ Ae Hok)) as Hv. apply ok_out in Hv.
    assert (Hb : ok b). { unfold v in Hv. apply ok_out, (wr_ok _ _ _ W), ok_out, ok_out, set_off_ok in Hv. exact Hv. }
    (* before the dictionary *)
    assert (Hb2 := put_imported_ok d _ Hb). assert (Hb3 := put_tpls_ok d _ Hb2).
    assert (Hb4 := put_image_list_ok _ _ _ Hb3).
    destruct (put_res_objects_adds w Hc Hb4) as (o1 & A1 & F1 & Hw).
    pose proof (ad_cip _ _ _ A1 Hc) as C1.
    assert (N1 : 2 <= w_n (put_res_objects d w)). { rewrite (ad_n _ _ _ A1). pose proof (pl_n _ _ _ _ P). pose proof (zlen_nonneg o1). lia. }
    destruct (put_images_adds d (put_res_objects d w) (in_img I) C1 N1) as (o2 & A2 & H2).
    pose proof (ad_cip _ _ _ A2 C1) as C2.
    destruct (put_tpls_adds d (put_images d (put_res_objects d w)) (in_tpl I) (in_fmt I) (in_font I) C2) as (o3 & A3 & H3).
    pose proof (ad_cip _ _ _ A3 C2) as C3.
    destruct (put_imported_adds d _ (in_shuf I) (in_imp I) C3 Hb) as (o4 & A4 & _).
    assert (A : adds w b (o1 +++ o2 +++ o3 +++ o4)).
    { eapply adds_trans; [exact A1|]. eapply adds_trans; [exact A2|]. eapply adds_trans; [exact A3|exact A4]. }
    assert (R : resources (o1 +++ o2 +++ o3 +++ o4)).
    { constructor.
      - apply (fonts_held_mono []). exact F1.
      - intros e Hin. destruct (H2 e Hin) as (e' & X1 & X2 & X3). exists e'. split; [exact X1|]. split; [exact X2|]. now apply image_streams_mono.
      - exists (w_n (put_images d (put_res_objects d w)) + 1). intros i x Hi. destruct (H3 i x Hi) as (body & X1 & X2). exists body. split; [|exact X2].
        apply in_or_app. right. apply in_or_app. right. apply in_or_app. now left. }
    clear A1 A2 A3 A4 H2 H3 F1. set (ob := o1 +++ o2 +++ o3 +++ o4) in *. clearbody ob.
    pose proof (placed_adds _ _ _ _ _ _ P A) as P1.
    assert (Wb : writes (out (bs "2 0 obj") (set_off 2 (zlen (w_buf b)) b)) v (bs "<<" +++ nl +++ t +++ bs ">>" +++ nl)).
    { pose proof (writes_snoc _ _ _ (bs ">>") (writes_trans _ _ _ _ _ (writes_out (bs "<<") (out (bs "2 0 obj") (set_off 2 (zlen (w_buf b)) b))) W)) as X.
      rewrite <- ?app_assoc in X. exact X. }
    assert (N2 : ~ In 2 [1]) by (intros [X|[]]; discriminate).
    pose proof (placed_special 2 [1] pre (os +++ ob) b v _ P1 (or_intror eq_refl) N2 Hv Wb) as P2.
    assert (Cv : cipok v).
    { intros m st Em. change (w_cip (put_resource_dict d u) = Some (m, st)) in Em. rewrite Wc in Em.
      change (w_cip (set_off 2 (zlen (w_buf b)) b) = Some (m, st)) in Em. rewrite set_off_cip in Em. apply (ad_cip _ _ _ A Hc) in Em.
      change (m <= w_n (put_resource_dict d u)). rewrite (wr_n _ _ _ W). change (m <= w_n (set_off 2 (zlen (w_buf b)) b)). now rewrite set_off_n. }
    assert (Tu : w_tab u = w_tab b) by (change (w_tab (set_off 2 (zlen (w_buf b)) b) = w_tab b); apply set_off_tab).
    assert (Tv : w_tab v = w_tab b). { change (w_tab (put_resource_dict d u) = w_tab b). rewrite put_resource_dict_tab. exact Tu. }
    clear oj Aj. destruct (put_javascript_adds d (out (bs "endobj") v) Cv) as (oj & Aj & Jq & Js).
    change (w_tab (out (bs "endobj") v)) with (w_tab v) in Jq. rewrite Tv in Jq.
    set (wj := put_javascript d (out (bs "endobj") v)) in *.
    pose proof (placed_adds _ _ _ _ _ _ (placed_adds _ _ _ _ _ _ P2 Aj) Ae) as P3.
    exists ob, u, t, (oj +++ oe). split; [rewrite <- ?app_assoc in P3; rewrite <- ?app_assoc; exact P3|].
    split.
    { apply (ad_cip _ _ _ Ae), (ad_cip _ _ _ Aj). intros m st Em.
      change (w_cip (put_resource_dict d u) = Some (m, st)) in Em. rewrite Wc in Em.
      change (w_cip (set_off 2 (zlen (w_buf b)) b) = Some (m, st)) in Em. rewrite set_off_cip in Em. apply (ad_cip _ _ _ A Hc) in Em.
      change (m <= w_n (put_resource_dict d u)). rewrite (wr_n _ _ _ W). change (m <= w_n (set_off 2 (zlen (w_buf b)) b)). now rewrite set_off_n. }
    split; [exact Hw|]. split; [exact R|]. split; [exact A|]. split.
    { change (w_tab (set_off 2 (zlen (w_buf b)) b) = w_tab b). apply set_off_tab. }
    split; [exact W|]. split; [|split; [exact Hb|split]].
    - intros p Hp. destruct (He p Hp) as [-> Ht]. eexists. split; [apply in_or_app; right; now left|].
      rewrite Ht. reflexivity.
    - intros js Ejs. destruct (Js js Ejs) as [-> Fj]. exists (w_n (out (bs "endobj") v) + 1).
      replace (w_n (out (bs "endobj") v) + 1 + 1) with (w_n (out (bs "endobj") v) + 2) by lia.
      split; [now left|]. split; [right; now left|]. destruct (d_protect d) as [p|] eqn:Ep.
      + destruct (He p eq_refl) as [_ ->]. cbn [find_slot slot_eqb]. exact Fj.
      + unfold put_encrypt. rewrite Ep. exact Fj.
    - intros s H1 H2. rewrite <- Jq by exact H1. destruct (d_protect d) as [p|] eqn:Ep.
      + destruct (He p eq_refl) as [_ ->]. cbn [find_slot]. destruct (slot_eqb s SEnc) eqn:Es; [|reflexivity]. exfalso. apply H2. destruct s; try discriminate Es; reflexivity.
      + unfold put_encrypt. rewrite Ep. reflexivity.
  Qed.
End Layout.
