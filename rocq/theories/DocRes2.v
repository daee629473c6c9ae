(** Images, templates, imported objects, bookmarks and metadata. *)
From Verif Require Import Base TextModel Crypto DocModel DocSpec DocProofs DocWalk DocParts DocRes.
From Coq Require Import String Permutation.
Open Scope Z_scope.
Notation length := List.length.
Local Notation "a +++ b" := (List.app a b) (at level 60, right associativity, only parsing).

Section R.
  Context {E : env} (d : doc (e_num E)).

  Definition image_clean (im : image) : Prop :=
    clean (im_cs im) = true /\ clean (im_filter im) = true /\ clean (im_dp im) = true.

  Lemma clean_concat {A} (f : A -> bytes) l : (forall x, In x l -> clean (f x) = true) -> clean (List.concat (map f l)) = true.
  Proof.
    induction l as [|x l IH]; intros H; [reflexivity|]. cbn [map List.concat]. apply clean_app; [apply H; now left|].
    apply IH. intros. apply H. now right.
  Qed.

  Lemma image_dict_shape im w : image_clean im ->
    exists v, cgrow w v /\ image_dict d im w = putstream d (im_data im) (out (bs "/Length " +++ dec (zlen (im_data im)) +++ bs ">>") v).
  Proof.
    intros (C1 & C2 & C3). unfold image_dict. cbv zeta. eexists. split; [|reflexivity].
    repeat match goal with
    | |- cgrow _ (match ?x with _ => _ end) => destruct x
    | |- cgrow _ (out _ _) => apply cgrow_out; [|cl; try (apply clean_concat; intros; cl)]
    | |- cgrow _ _ => apply cgrow_refl
    end.
  Qed.
  Lemma putstream_tab b w : w_tab (putstream d b w) = w_tab w.
  Proof. unfold putstream, encrypt. destruct (d_protect d); [|reflexivity]. now destruct (xor_stream _ _). Qed.
  Lemma if_tab (c : bool) s w : w_tab (if c then out s w else w) = w_tab w.
  Proof. now destruct c. Qed.
  Lemma image_dict_tab im w : w_tab (image_dict d im w) = w_tab w.
  Proof.
    unfold image_dict. cbv zeta. rewrite putstream_tab, tab_out.
    assert (G : forall x w, w_tab (match im_smask im with Some _ => out x w | None => w end) = w_tab w) by (intros; now destruct (im_smask im)).
    rewrite G. rewrite !if_tab, tab_out.
    assert (G2 : forall x w1 w2, w_tab w1 = w_tab w2 -> w_tab (if beqb (im_cs im) (bs "Indexed") then out x w1 else w2) = w_tab w1).
    { intros x w1 w2 Hw. now destruct (beqb _ _). }
    rewrite G2; [now rewrite !tab_out|]. now rewrite if_tab, !tab_out.
  Qed.

  Lemma image_obj_adds im w v : image_clean im -> cipok w -> cgrow (newobj w) v ->
    exists body, adds w (out (bs "endobj") (image_dict d im v)) [obj (w_n w + 1) body] /\ stream_body body (cipher d (w_n w + 1) (im_data im)).
  Proof.
    intros Hcl Hc Hv. destruct (image_dict_shape im v Hcl) as (u & Hu & ->).
    eapply (adds_stream_obj d w u _ _ [] (bs ">>")); [exact Hc|eapply cgrow_trans; eauto|reflexivity|reflexivity|reflexivity|apply pgrow_refl].
  Qed.

  (** the streams of one image: samples, soft mask, palette *)
  Definition image_streams (im : image) (os : list (Z * bytes)) : Prop :=
    holds d (im_data im) os /\
    (forall c m, im_smask im = Some (c :: m) -> holds d (c :: m) os) /\
    (im_cs im = bs "Indexed" -> holds d (if d_compress d then e_zlib E (im_pal im) else im_pal im) os).
  Lemma image_streams_mono im a b c : image_streams im b -> image_streams im (a +++ b +++ c).
  Proof. intros (H1 & H2 & H3). split; [now apply holds_mono|]. split; intros; apply holds_mono; eauto. Qed.

  Lemma put_image_adds im w : image_clean im -> cipok w ->
    exists os, adds w (put_image d im w) os /\ image_streams im os /\
      w_n w < w_n (put_image d im w) /\ (2 <= w_n w -> 2 < saved (SImg (im_ptr im)) (put_image d im w) <= w_n (put_image d im w)) /\ 
      (exists body, In (obj (w_n w + 1) body) os /\ stream_body body (cipher d (w_n w + 1) (im_data im))) /\
      saved (SImg (im_ptr im)) (put_image d im w) = w_n w + 1.
  Proof.
    intros Hcl Hc. unfold put_image. cbv zeta.
    destruct (image_obj_adds im w (save (SImg (im_ptr im)) (newobj w)) Hcl Hc) as (b1 & A1 & S1).
    { apply cgrow_save, cgrow_refl. }
    set (w1 := out (bs "endobj") (image_dict d im (save (SImg (im_ptr im)) (newobj w)))) in *.
    assert (T1 : exists ts, w_tab w1 = (SImg (im_ptr im), w_n w + 1) :: ts).
    { exists (w_tab w). unfold w1. rewrite tab_out, image_dict_tab. cbn [w_tab save set_tab]. now rewrite newobj_n, newobj_tab. }
    assert (P2 : exists o2 w2, w2 = (match im_smask im with
             | Some (c :: m) => out (bs "endobj") (image_dict d (smask_image im (c :: m)) (newobj w1))
             | _ => w1 end) /\ adds w1 w2 o2 /\ (forall c m, im_smask im = Some (c :: m) -> holds d (c :: m) o2) /\ w_tab w2 = w_tab w1).
    { destruct (im_smask im) as [[|c m]|].
      - exists [], w1. split; [reflexivity|]. split; [apply adds_refl|]. split; [intros; discriminate|reflexivity].
      - destruct (image_obj_adds (smask_image im (c :: m)) w1 (newobj w1)) as (b2 & A2 & S2).
        + destruct Hcl as (C1 & C2 & C3). split; [reflexivity|]. split; [exact C2|]. cbn [im_dp smask_image]. cl.
        + apply (ad_cip _ _ _ A1 Hc).
        + apply cgrow_refl.
        + eexists _, _. split; [reflexivity|]. split; [exact A2|]. split.
          * intros c' m' Hx. injection Hx as <- <-. eexists _, b2. split; [now left|exact S2].
          * rewrite tab_out, image_dict_tab. apply newobj_tab.
      - exists [], w1. split; [reflexivity|]. split; [apply adds_refl|]. split; [intros; discriminate|reflexivity]. }
    destruct P2 as (o2 & w2 & E2 & A2 & H2 & T2). rewrite <- E2. clear E2.
    assert (P3 : exists o3 w3, w3 = (if beqb (im_cs im) (bs "Indexed") then
        out (bs "endobj") (if d_compress d then
                 putstream d (e_zlib E (im_pal im)) (out (bs "<</Filter /FlateDecode /Length " +++ dec (zlen (e_zlib E (im_pal im))) +++ bs ">>") (newobj w2))
               else putstream d (im_pal im) (out (bs "<</Length " +++ dec (zlen (im_pal im)) +++ bs ">>") (newobj w2)))
        else w2) /\ adds w2 w3 o3 /\ (im_cs im = bs "Indexed" -> holds d (if d_compress d then e_zlib E (im_pal im) else im_pal im) o3) /\ w_tab w3 = w_tab w2).
    { destruct (beqb (im_cs im) (bs "Indexed")) eqn:Ei.
      - pose proof (ad_cip _ _ _ A2 (ad_cip _ _ _ A1 Hc)) as Hc2. destruct (d_compress d).
        + destruct (pushes_stream d w2 w2 (out (bs "<</Filter /FlateDecode /Length " +++ dec (zlen (e_zlib E (im_pal im))) +++ bs ">>") (newobj w2))
            (bs "<</Filter /FlateDecode /Length " +++ dec (zlen (e_zlib E (im_pal im))) +++ bs ">>") (bs ">>") (e_zlib E (im_pal im)) (newobj w2) (bs "<</Filter /FlateDecode ")) as (o3 & A3 & H3);
            [apply pushes_refl|exact Hc2|apply cgrow_refl|reflexivity|reflexivity|reflexivity|apply pgrow_refl|].
          eexists _, _. split; [reflexivity|]. split; [exact A3|]. split; [auto|]. rewrite tab_out, putstream_tab, tab_out. apply newobj_tab.
        + destruct (pushes_stream d w2 w2 (out (bs "<</Length " +++ dec (zlen (im_pal im)) +++ bs ">>") (newobj w2))
            (bs "<</Length " +++ dec (zlen (im_pal im)) +++ bs ">>") (bs ">>") (im_pal im) (newobj w2) (bs "<<")) as (o3 & A3 & H3);
            [apply pushes_refl|exact Hc2|apply cgrow_refl|reflexivity|reflexivity|reflexivity|apply pgrow_refl|].
          eexists _, _. split; [reflexivity|]. split; [exact A3|]. split; [auto|]. rewrite tab_out, putstream_tab, tab_out. apply newobj_tab.
      - eexists [], w2. split; [reflexivity|]. split; [apply adds_refl|]. split; [|reflexivity]. intros Hx. apply beqb_eq in Hx. congruence. }
    destruct P3 as (o3 & w3 & E3 & A3 & H3 & T3). rewrite <- E3. clear E3.
    assert (N : w_n w + 1 <= w_n w3).
    { pose proof (ad_n _ _ _ A1) as N1. pose proof (ad_n _ _ _ A2) as N2. pose proof (ad_n _ _ _ A3) as N3.
      pose proof (zlen_nonneg o2). pose proof (zlen_nonneg o3). change (zlen [obj (w_n w + 1) b1]) with 1 in N1. lia. }
    assert (Sv : saved (SImg (im_ptr im)) w3 = w_n w + 1).
    { unfold saved. destruct T1 as [ts T1]. rewrite T3, T2, T1. cbn [find_slot slot_eqb]. now rewrite Z.eqb_refl. }
    exists ([obj (w_n w + 1) b1] +++ o2 +++ o3). split; [eapply adds_trans; [exact A1|eapply adds_trans; eauto]|].
    split; [|split; [lia|split; [intros; lia|split; [|exact Sv]]]].
    - split; [|split].
      + apply holds_app_l. eexists _, b1. split; [now left|exact S1].
      + intros. apply holds_app_r, holds_app_l. eauto.
      + intros. do 2 apply holds_app_r. auto.
    - exists b1. split; [now left|exact S1].
  Qed.

  Lemma assoc_in k l v : assoc k l = Some v -> In (k, v) l.
  Proof.
    induction l as [|[x y] l IH]; cbn; [discriminate|]. destruct (beqb k x) eqn:Eb.
    - apply beqb_eq in Eb. intros H. injection H as ->. subst. now left.
    - intros H. right. auto.
  Qed.
  Lemma assoc_none k l : assoc k l = None -> ~ In k (map fst l).
  Proof.
    induction l as [|[x y] l IH]; cbn; [auto|]. destruct (beqb k x) eqn:Eb; [discriminate|].
    apply beqb_neq in Eb. intros H [X|X]; [now subst|]. now apply IH.
  Qed.

  Lemma put_image_list_adds l ins w :
    (forall e, In e l -> image_clean (snd e)) -> cipok w -> 2 <= w_n w ->
    Forall (fun e => 2 < snd e <= w_n w) ins ->
    exists os, adds w (put_image_list d l ins w) os /\
      forall e, In e l -> In (im_id (snd e)) (map fst ins) \/
        exists e', In e' l /\ im_id (snd e') = im_id (snd e) /\ image_streams (snd e') os.
  Proof.
    revert ins w. induction l as [|[key im] l IH]; intros ins w Hcl Hc H2 Hins.
    - exists []. split; [apply adds_refl|easy].
    - cbn [put_image_list]. destruct (assoc (im_id im) ins) as [n|] eqn:Ea.
      + apply assoc_in in Ea. pose proof (proj1 (Forall_forall _ _) Hins _ Ea) as Hn. cbn in Hn.
        destruct (IH ins (set_tab ((SImg (im_ptr im), n) :: w_tab w) w)) as (os & A & H); auto.
        { intros. apply Hcl. now right. }
        exists os. split.
        * apply (adds_pretab [(SImg (im_ptr im), n)]); [|exact A]. intros _ _. constructor; [|constructor]. cbn.
          pose proof (ad_n _ _ _ A) as X. pose proof (zlen_nonneg os). change (w_n (set_tab ((SImg (im_ptr im), n) :: w_tab w) w)) with (w_n w) in X. lia.
        * intros e [<-|He].
          -- left. cbn. now apply (in_map fst) in Ea.
          -- destruct (H e He) as [Hi|(e' & He' & Ei & Hs)]; [now left|]. right. exists e'. split; [now right|auto].
      + destruct (put_image_adds im w) as (o1 & A1 & S1 & N1 & V1 & _); [apply (Hcl (key, im)); now left|exact Hc|].
        cbv zeta. destruct (IH ((im_id im, saved (SImg (im_ptr im)) (put_image d im w)) :: ins) (put_image d im w)) as (o2 & A2 & H).
        { intros. apply Hcl. now right. }
        { apply (ad_cip _ _ _ A1 Hc). }
        { lia. }
        { constructor; [cbn [snd]; now apply V1|]. eapply Forall_impl; [|exact Hins]. cbn. intros. lia. }
        exists (o1 +++ o2). split; [eapply adds_trans; eauto|]. intros e [<-|He].
        * right. exists (key, im). split; [now left|]. split; [reflexivity|].
          apply (image_streams_mono _ [] o1 o2). exact S1.
        * destruct (H e He) as [Hi|(e' & He' & Ei & Hs)].
          -- cbn [map fst In] in Hi. destruct Hi as [Hi|Hi]; [|now left]. right. exists (key, im). split; [now left|]. split; [exact Hi|].
             apply (image_streams_mono _ [] o1 o2). exact S1.
          -- right. exists e'. split; [now right|]. split; [exact Ei|]. rewrite <- (app_nil_r o2). now apply image_streams_mono.
  Qed.

  Definition img_list : list (bytes * image) := keyed E 6 (d_sort d) (fun a b => im_w (snd a) <? im_w (snd b)) (d_images d).
  Lemma put_images_adds w :
    (forall e, In e img_list -> image_clean (snd e)) -> cipok w -> 2 <= w_n w ->
    exists os, adds w (put_images d w) os /\
      forall e, In e img_list -> exists e', In e' img_list /\ im_id (snd e') = im_id (snd e) /\ image_streams (snd e') os.
  Proof.
    intros Hcl Hc H2. unfold put_images. fold img_list.
    destruct (put_image_list_adds img_list [] w Hcl Hc H2 (Forall_nil _)) as (os & A & H).
    exists os. split; [exact A|]. intros e He. destruct (H e He) as [[]|X]. exact X.
  Qed.

  (** ** Templates *)
  Definition tpl_content (t : tpl (e_num E)) : bytes := let 'Tpl _ _ _ _ _ _ _ c _ _ := t in c.
  Definition tpl_images (t : tpl (e_num E)) : list (bytes * image) := let 'Tpl _ _ _ _ _ _ _ _ i _ := t in i.
  (** names printed into a template dictionary *)
  Definition tpl_clean (t : tpl (e_num E)) : Prop :=
    (forall e, In e (keyed E 9 (d_gsort d) (fun a b => by_key a b) (tpl_images t)) -> clean (im_id (snd e)) = true) /\
    (forall s, In s (tpl_subs t) -> clean (tpl_id s) = true).
  Definition fmt_clean : Prop := forall x : e_num E, clean (e_fmt2 E x) = true /\ clean (e_fmt5 E x) = true.
  Definition font_ids_clean : Prop :=
    forall e, In e (keyed E 7 (d_sort d) (fun a b => by_key a b) (d_fonts d)) -> clean (fo_id (snd e)) = true.

  Definition tpl_data (t : tpl (e_num E)) : bytes := if d_compress d then e_zlib E (tpl_content t) else tpl_content t.

  Lemma put_tpl_adds t w : tpl_clean t -> fmt_clean -> font_ids_clean -> cipok w ->
    exists body, adds w (put_tpl d t w) [obj (w_n w + 1) body] /\ stream_body body (cipher d (w_n w + 1) (tpl_data t)).
  Proof.
    intros (C1 & C2) Cf Ci Hc. destruct t as [ptr id cx cy moved wd ht content images subs]. unfold put_tpl, tpl_data. cbn [tpl_content tpl_images tpl_subs] in *. cbv zeta.
    assert (F2 : forall x, clean (e_fmt2 E x) = true) by (intros; apply Cf).
    assert (F5 : forall x, clean (e_fmt5 E x) = true) by (intros; apply Cf).
    assert (Gf : forall a b, cgrow a b -> cgrow a (tpl_fonts d b)).
    { intros a b Hab. unfold tpl_fonts. cbv zeta. apply cgrow_out; [|cl]. apply cgrow_fold.
      - intros e v He. apply cgrow_out; [apply cgrow_refl|]. specialize (Ci e He). cl.
      - apply cgrow_out; [exact Hab|cl]. }
    eapply (adds_stream_obj d w _ _ _ [] (bs " >>")); [exact Hc| |reflexivity|reflexivity|reflexivity|apply pgrow_refl].
    apply cgrow_out; [|cl].
    match goal with |- cgrow _ (if ?c then _ else _) => destruct c end.
    - apply cgrow_out; [|cl]. apply cgrow_fold.
      + intros s v Hs. specialize (C2 s Hs). destruct (find_slot _ _); [|apply cgrow_refl]. apply cgrow_out; [apply cgrow_refl|]. cl.
      + apply cgrow_fold.
        * intros e v He. specialize (C1 e He). apply cgrow_out; [apply cgrow_refl|]. cl.
        * apply cgrow_out; [|cl]. apply Gf. apply cgrow_out; [|cl]. apply cgrow_out; [|cl].
          destruct moved; [apply cgrow_out; [|cl; apply F5]|]; (apply cgrow_out; [|cl; apply F2]; apply cgrow_out; [|cl]; apply cgrow_out; [|cl]; apply cgrow_out; [|destruct (d_compress d); cl]; apply cgrow_save, cgrow_refl).
    - apply Gf. apply cgrow_out; [|cl]. apply cgrow_out; [|cl].
      destruct moved; [apply cgrow_out; [|cl; apply F5]|]; (apply cgrow_out; [|cl; apply F2]; apply cgrow_out; [|cl]; apply cgrow_out; [|cl]; apply cgrow_out; [|destruct (d_compress d); cl]; apply cgrow_save, cgrow_refl).
  Qed.

  Lemma put_tpl_ok t w : ok (put_tpl d t w) -> ok w.
  Proof.
    destruct t as [ptr id cx cy moved wd ht content images subs]. unfold put_tpl. cbv zeta. intros H.
    apply ok_out, putstream_ok, ok_out, ok_out in H.
    assert (Gf : forall b, ok (tpl_fonts d b) -> ok b).
    { intros b Hb. unfold tpl_fonts in Hb. cbv zeta in Hb. apply ok_out in Hb. apply ok_fold in Hb; [exact Hb|]. auto. }
    assert (G : ok (tpl_fonts d (out (bs "<</ProcSet [/PDF /Text /ImageB /ImageC /ImageI]") (out (bs "/Resources ")
       (if moved then out (bs "/Matrix [1 0 0 1 " +++ e_fmt5 E (e_nmul E (e_nmul E (e_nopp E cx) (d_k d)) (e_ntwo E)) +++ bs " " +++ e_fmt5 E (e_nmul E (e_nmul E cy (d_k d)) (e_ntwo E)) +++ bs "]")
          (out (bs "/BBox [" +++ e_fmt2 E (e_nmul E cx (d_k d)) +++ bs " " +++ e_fmt2 E (e_nmul E cy (d_k d)) +++ bs " " +++ e_fmt2 E (e_nmul E (e_nadd E cx wd) (d_k d))
                      +++ bs " " +++ e_fmt2 E (e_nmul E (e_nadd E cy ht) (d_k d)) +++ bs "]") (out (bs "/Formtype 1") (out (bs "/Subtype /Form") (out (bs "<<" +++ (if d_compress d then bs "/Filter /FlateDecode " else []) +++ bs "/Type /XObject") (save (STpl id) (newobj w))))))
         else (out (bs "/BBox [" +++ e_fmt2 E (e_nmul E cx (d_k d)) +++ bs " " +++ e_fmt2 E (e_nmul E cy (d_k d)) +++ bs " " +++ e_fmt2 E (e_nmul E (e_nadd E cx wd) (d_k d))
                      +++ bs " " +++ e_fmt2 E (e_nmul E (e_nadd E cy ht) (d_k d)) +++ bs "]") (out (bs "/Formtype 1") (out (bs "/Subtype /Form") (out (bs "<<" +++ (if d_compress d then bs "/Filter /FlateDecode " else []) +++ bs "/Type /XObject") (save (STpl id) (newobj w)))))))) ))).
    { destruct ((0 <? zlen images) || (0 <? zlen subs)); [|exact H].
      apply ok_out in H. apply ok_fold in H.
      - apply ok_fold in H; [exact H|]. auto.
      - intros x v. destruct (find_slot _ _); auto. }
    apply Gf in G. apply newobj_ok. destruct moved; exact G.
  Qed.
  Lemma put_tpls_adds w : (forall t, In t (sort_tpls d) -> tpl_clean t) -> fmt_clean -> font_ids_clean -> cipok w ->
    exists os, adds w (put_tpls d w) os /\
      forall i t, nth_error (sort_tpls d) i = Some t ->
        exists body, In (obj (w_n w + 1 + Z.of_nat i) body) os /\ stream_body body (cipher d (w_n w + 1 + Z.of_nat i) (tpl_data t)).
  Proof.
    intros Ct Cf Ci. unfold put_tpls. revert w Ct. induction (sort_tpls d) as [|t l IH]; intros w Ct Hc.
    - exists []. split; [apply adds_refl|]. intros [|i] t H; discriminate.
    - cbn [fold_left]. destruct (put_tpl_adds t w (Ct t (or_introl eq_refl)) Cf Ci Hc) as (body & A & S).
      destruct (IH (put_tpl d t w)) as (os & A2 & H2); [intros u Hu; apply Ct; now right|apply (ad_cip _ _ _ A Hc)|].
      exists ([obj (w_n w + 1) body] +++ os). split; [eapply adds_trans; eauto|]. intros [|i] u Hu.
      + injection Hu as <-. rewrite Z.add_0_r. exists body. split; [now left|exact S].
      + cbn [nth_error] in Hu. destruct (H2 i u Hu) as (b2 & Hb & Sb). rewrite (ad_n _ _ _ A) in Hb, Sb.
        change (zlen [obj (w_n w + 1) body]) with 1 in Hb, Sb. replace (w_n w + 1 + Z.of_nat (Datatypes.S i)) with (w_n w + 1 + 1 + Z.of_nat i) by lia.
        exists b2. split; [now right|exact Sb].
  Qed.
  Lemma put_tpls_ok w : ok (put_tpls d w) -> ok w.
  Proof. unfold put_tpls. apply ok_fold. intros. eapply put_tpl_ok; eauto. Qed.

  (** ** Imported objects *)
  (** what the gofpdi importer hands over: a body closed by endobj and blank
      lines, with room for the 40-byte references inside the body *)
  Definition imported_closed (e : bytes * (bytes * list (Z * bytes))) : Prop :=
    exists body ws, fst (snd e) = body +++ bs "endobj" +++ ws /\ Forall (fun c => c = 10) ws /\
      Forall (fun p => fst p + 40 <= zlen body) (snd (snd e)).
  Lemma overwrite_tail src pos body tail data' :
    overwrite pos src (body +++ tail) = Some data' -> pos + zlen src <= zlen body ->
    exists body', data' = body' +++ tail /\ zlen body' = zlen body.
  Proof.
    revert pos body. induction src as [|c src IH]; intros pos body H Hle; cbn [overwrite] in H.
    - injection H as <-. now exists body.
    - destruct ((0 <=? pos) && (pos <? zlen (body +++ tail))) eqn:Ec; [|discriminate].
      rewrite zlen_cons in Hle. pose proof (zlen_nonneg src).
      assert (Es : set_nth (Z.to_nat pos) c (body +++ tail) = set_nth (Z.to_nat pos) c body +++ tail).
      { assert (Hp : (Z.to_nat pos < length body)%nat) by (unfold zlen in *; lia).
        clear - Hp. revert Hp. generalize (Z.to_nat pos) as n. induction body as [|x b IHb]; intros [|n] Hp; cbn in *; try lia; [reflexivity|].
        now rewrite IHb by lia. }
      rewrite Es in H. apply IH in H.
      + destruct H as (b' & -> & Hb). exists b'. split; [reflexivity|]. rewrite Hb. unfold zlen. now rewrite set_nth_length.
      + unfold zlen at 2. rewrite set_nth_length. fold (zlen body). lia.
  Qed.
  Lemma patch_tail objs off ps body tail data' :
    patch objs off ps (body +++ tail) = Some data' -> Forall (fun p => fst p + 40 <= zlen body) ps ->
    exists body', data' = body' +++ tail.
  Proof.
    revert body. induction ps as [|[pos h] ps IH]; intros body H F; cbn [patch] in H.
    - injection H as <-. now exists body.
    - apply Forall_cons_iff in F as [F1 F2]. cbn [fst] in F1.
      destruct (overwrite pos _ (body +++ tail)) as [dd|] eqn:Eo; [|discriminate].
      apply overwrite_tail in Eo.
      + destruct Eo as (b' & -> & Hb). eapply IH; [exact H|]. now rewrite Hb.
      + match goal with |- pos + zlen (firstn 40 ?x) <= _ => pose proof (firstn_le_length 40 x) end. unfold zlen in *. lia.
  Qed.
  Lemma lf_comm ws : Forall (fun c => c = 10) ws -> ws +++ nl = nl +++ ws.
  Proof.
    induction ws as [|c ws IH]; intros F; [reflexivity|]. apply Forall_cons_iff in F as [-> F].
    cbn [app]. rewrite (IH F). reflexivity.
  Qed.

  Lemma imported_obj w tail : closed (w_n w + 1, tail +++ nl) -> adds w (out tail (newobj w)) [(w_n w + 1, tail +++ nl)].
  Proof.
    intros Hcl. constructor.
    - intros H. now apply newobj_ok.
    - rewrite n_out, newobj_n. reflexivity.
    - reflexivity.
    - cbn [w_buf out set_buf]. rewrite newobj_buf. unfold render, objtext. cbn [map List.concat fst snd].
      rewrite ?app_nil_r, <- ?app_assoc. reflexivity.
    - constructor; [exact Hcl|constructor].
    - intros _ _. exists []. split; [rewrite tab_out; apply newobj_tab|constructor].
    - intros Hc m st. cbn [w_cip out set_buf]. rewrite newobj_cip, n_out, newobj_n. intros Em. apply Hc in Em. lia.
    - intros Hn Hl. right. cbn [w_offs out set_buf]. rewrite n_out, newobj_n. destruct (newobj_spec w Hn Hl) as [-> _]. lia.
    - intros Hn Hl k v Hk Hv. cbn [w_offs out set_buf]. destruct (newobj_spec w Hn Hl) as (_ & _ & _ & H). now apply H.
    - intros Hn Hl a o c Eo. destruct a as [|? a]; [|destruct a; discriminate]. injection Eo as <- <-.
      cbn [w_offs out set_buf fst]. destruct (newobj_spec w Hn Hl) as (_ & -> & _). cbn. now rewrite app_nil_r.
  Qed.

  Definition imp_step objs off (w : wst) (e : bytes * (bytes * list (Z * bytes))) : wst :=
    let '(data, w) := match patch objs off (e_shuffle E 11 _ (snd (snd e))) (fst (snd e)) with
                      | Some x => (x, w) | None => ([], panic w) end in
    out data (newobj w).
  Lemma imp_step_ok objs off w e : ok (imp_step objs off w e) -> ok w.
  Proof.
    unfold imp_step. destruct (patch _ _ _ _); intros H; apply ok_out, newobj_ok in H; [exact H|]. now apply ok_panic in H.
  Qed.
  Lemma imp_step_adds objs off w e :
    (forall l : list (Z * bytes), Permutation (e_shuffle E 11 _ l) l) ->
    imported_closed e -> ok (imp_step objs off w e) -> exists o, adds w (imp_step objs off w e) [o].
  Proof.
    intros Hsh (body & ws & Eb & Fw & Fp). unfold imp_step. rewrite Eb.
    destruct (patch objs off _ (body +++ bs "endobj" +++ ws)) as [data|] eqn:Ep.
    2:{ intros H. apply ok_out, newobj_ok, ok_panic in H. easy. }
    intros _. apply patch_tail in Ep.
    - destruct Ep as (b' & ->). eexists. apply imported_obj. exists b', ws. split; [|exact Fw].
      cbn [snd]. rewrite <- ?app_assoc. now rewrite (lf_comm ws Fw).
    - rewrite Forall_forall in *. intros x Hx. apply Fp. eapply Permutation_in; [apply Hsh|exact Hx].
  Qed.

  Lemma put_imported_unfold w :
    put_imported d w =
    let objs := e_shuffle E 10 _ (d_impobjs d) in
    let off := w_n w + 1 in
    fold_left (imp_step objs off) objs (iteri (fun j e w => set_tab ((SImp (fst e), off + j) :: w_tab w) w) 0 objs w).
  Proof. reflexivity. Qed.

  Lemma imp_tab (objs : list (bytes * (bytes * list (Z * bytes)))) off j w :
    exists ts, iteri (fun j e w => set_tab ((SImp (fst e), off + j) :: w_tab w) w) j objs w = set_tab (ts +++ w_tab w) w /\
      Forall (fun e => off + j <= snd e < off + j + zlen objs) ts.
  Proof.
    revert j w. induction objs as [|e objs IH]; intros j w.
    - exists []. split; [now destruct w|constructor].
    - cbn [iteri]. destruct (IH (j + 1) (set_tab ((SImp (fst e), off + j) :: w_tab w) w)) as (ts & -> & F).
      exists (ts +++ [(SImp (fst e), off + j)]). split; [cbn [w_tab set_tab]; now rewrite <- app_assoc|].
      pose proof (zlen_nonneg objs). rewrite zlen_cons. apply Forall_app. split.
      + eapply Forall_impl; [|exact F]. cbn. intros. lia.
      + constructor; [cbn; lia|constructor].
  Qed.

  Lemma put_imported_ok w : ok (put_imported d w) -> ok w.
  Proof.
    rewrite put_imported_unfold. cbv zeta. destruct (imp_tab (e_shuffle E 10 _ (d_impobjs d)) (w_n w + 1) 0 w) as (ts & -> & _).
    intros H. apply ok_fold in H; [exact H|]. intros. eapply imp_step_ok; eauto.
  Qed.
  Lemma put_imported_adds w :
    (forall l : list (Z * bytes), Permutation (e_shuffle E 11 _ l) l) ->
    (forall e, In e (e_shuffle E 10 _ (d_impobjs d)) -> imported_closed e) -> cipok w -> ok (put_imported d w) ->
    exists os, adds w (put_imported d w) os /\ zlen os = zlen (e_shuffle E 10 _ (d_impobjs d)).
  Proof.
    intros Hsh Hcl Hc Hok. rewrite put_imported_unfold in *. cbv zeta in *.
    set (objs := e_shuffle E 10 _ (d_impobjs d)) in *.
    destruct (imp_tab objs (w_n w + 1) 0 w) as (ts & Et & Ft). rewrite Et in *. clear Et.
    assert (G : forall l v, cipok v -> (forall e, In e l -> imported_closed e) -> ok (fold_left (imp_step objs (w_n w + 1)) l v) ->
                exists os, adds v (fold_left (imp_step objs (w_n w + 1)) l v) os /\ zlen os = zlen l).
    { induction l as [|e l IH]; intros v Hv Hl Hk.
      - exists []. split; [apply adds_refl|reflexivity].
      - cbn [fold_left] in *.
        destruct (imp_step_adds objs (w_n w + 1) v e Hsh) as (o & A).
        + apply Hl. now left.
        + eapply ok_fold; [|exact Hk]. intros. eapply imp_step_ok; eauto.
        + destruct (IH (imp_step objs (w_n w + 1) v e)) as (os & A2 & N2).
          * apply (ad_cip _ _ _ A Hv).
          * intros. apply Hl. now right.
          * exact Hk.
          * exists ([o] +++ os). split; [eapply adds_trans; eauto|]. cbn [app]. rewrite !zlen_cons. lia. }
    destruct (G objs (set_tab (ts +++ w_tab w) w)) as (os & A & N); auto.
    exists os. split; [|exact N]. eapply adds_pretab; [|exact A]. intros _ Hn.
    pose proof (ad_n _ _ _ A) as X. change (w_n (set_tab (ts +++ w_tab w) w)) with (w_n w) in X.
    eapply Forall_impl; [|exact Ft]. cbn. intros. lia.
  Qed.
End R.
