(** The objects each part of the assembly adds: attachments, pages, fonts,
    images, templates, bookmarks, metadata. *)
From Verif Require Import Base TextModel Crypto DocModel DocSpec DocProofs DocWalk PageSpec DocPage.
From Coq Require Import String.
Open Scope Z_scope.
Notation length := List.length.
Local Notation "a +++ b" := (List.app a b) (at level 60, right associativity, only parsing).

Section Parts.
  Context {E : env} (d : doc (e_num E)).

  (** some object of the list is a stream object with these data *)
  Definition holds (data : bytes) (os : list (Z * bytes)) : Prop :=
    exists k body, In (obj k body) os /\ stream_body body (cipher d k data).
  Lemma holds_mono data a b c : holds data b -> holds data (a +++ b +++ c).
  Proof. intros (k & body & H & S). exists k, body. split; [|exact S]. apply in_or_app. right. apply in_or_app. now left. Qed.

  Ltac gtext := first
    [ match goal with H : textstr _ _ _ = _ |- _ => apply textstr_grow in H end
    | match goal with H : textstr16 _ _ _ = _ |- _ => apply textstr16_grow in H end ].
  Ltac gfin := match goal with H : grow ?a ?b |- grow _ ?b => refine (grow_trans _ _ _ _ H); clear H end.
  Ltac gauto := repeat first [ gtext | gfin | gstep ].

  Lemma occurs_app_l l a b : occurs l a -> occurs l (a +++ b).
  Proof. intros (x & y & ->). exists x, (y +++ b). now rewrite <- ?app_assoc. Qed.
  Lemma occurs_app_r l a b : occurs l b -> occurs l (a +++ b).
  Proof. intros (x & y & ->). exists (a +++ x), y. now rewrite <- ?app_assoc. Qed.
  Lemma occurs_refl l : occurs l l.
  Proof. exists [], []. now rewrite app_nil_r. Qed.

  (** ** Attachments *)
  (** the entries of an embedded file that describe its content *)
  Definition file_params (c : bytes) : bytes :=
    bs " /Filter /FlateDecode /Params << /CheckSum <" +++ e_hex E (e_md5 E c) +++ bs "> /Size " +++ dec (zlen c) +++ bs " >>".
  (** the dictionary of an embedded file *)
  Definition file_dict (c : bytes) : bytes := bs "<< /Type /EmbeddedFile /Length " +++ dec (zlen (e_zlib E c)) +++ file_params c +++ bs " >>" +++ nl +++ nl.
  Lemma write_file_text c w :
    cipok w -> adds w (write_file d c w) [obj (w_n w + 1) (file_dict c +++ stream_text (cipher d (w_n w + 1) (e_zlib E c)))].
  Proof.
    intros Hc. unfold write_file. cbv zeta. eapply adds_stream; [exact Hc| |reflexivity].
    unfold file_dict, file_params.
    match goal with |- writes _ (out ?l ?w0) _ => pose proof (writes_out l w0) as H end.
    rewrite <- ?app_assoc in H. rewrite <- ?app_assoc. exact H.
  Qed.
  Lemma file_dict_stream c data : zlen data = zlen (e_zlib E c) ->
    stream_body (file_dict c +++ stream_text data) data /\ occurs (file_params c) (file_dict c +++ stream_text data).
  Proof.
    intros H. split.
    - eexists. split; [unfold stream_text; reflexivity|]. change (zlength data) with (zlen data). rewrite H. unfold file_dict, file_params.
      change (bs "<< /Type /EmbeddedFile /Length ") with (bs "<< /Type /EmbeddedFile " +++ bs "/Length ").
      rewrite <- ?app_assoc. apply declared_length_app; [reflexivity|apply zlen_nonneg|reflexivity].
    - apply occurs_app_l. exists (bs "<< /Type /EmbeddedFile /Length " +++ dec (zlen (e_zlib E c))), (bs " >>" +++ nl +++ nl).
      unfold file_dict. rewrite <- ?app_assoc. reflexivity.
  Qed.

  (** the two objects of an attachment, to the letter as far as the description *)
  Definition att_exact (k : Z) (a : attachment) (b1 b2 : bytes) : Prop :=
    b1 = file_dict (at_content a) +++ stream_text (cipher d k (e_zlib E (at_content a))) /\
    exists n16 t, utf8toutf16 (at_name a) true = Ret n16 /\
      b2 = bs "<< /Type /Filespec /F () /UF " +++ (bs "(" +++ escape (cipher d (k + 1) n16) +++ bs ")") +++ bs " /EF << /F " +++ dec k +++ bs " 0 R >> /Desc " +++ t.
  Lemma embed_adds p w :
    cipok w -> exists os, adds w (embed d p w) os /\
      (ok (embed d p w) -> exists a, at_ (d_atts d) p = Some a /\
        (att_num d p w <> 0 /\ os = [] /\ embed d p w = w \/
         att_num d p w = 0 /\ exists b1 b2,
           os = [obj (w_n w + 1) b1; obj (w_n w + 2) b2] /\ (stream_body b1 (cipher d (w_n w + 1) (e_zlib E (at_content a))) /\ occurs (file_params (at_content a)) b1 /\ att_exact (w_n w + 1) a b1 b2) /\
           occurs (bs "/EF << /F " +++ dec (w_n w + 1) +++ bs " 0 R >>") b2 /\
           w_tab (embed d p w) = (SAtt p, w_n w + 2) :: w_tab w)).
  Proof.
    intros Hc. unfold embed. destruct (at_ (d_atts d) p) as [a|] eqn:Ea.
    2:{ exists []. split; [apply adds_panic, adds_refl|intros [_ H]; discriminate]. }
    destruct (att_num d p w =? 0) eqn:En; cbn [negb].
    2:{ exists []. split; [apply adds_refl|]. intros _. exists a. split; [reflexivity|]. left. split; [lia|auto]. }
    pose proof (write_file_text (at_content a) w Hc) as A1.
    pose proof (file_dict_stream (at_content a) (cipher d (w_n w + 1) (e_zlib E (at_content a))) (cipher_len d (w_n w + 1) (e_zlib E (at_content a)))) as S1.
    set (b1 := file_dict (at_content a) +++ stream_text (cipher d (w_n w + 1) (e_zlib E (at_content a)))) in *.
    set (v := write_file d (at_content a) w) in *.
    assert (Hv : w_n v = w_n w + 1). { rewrite (ad_n _ _ _ A1). reflexivity. }
    destruct (textstr16 d (at_name a) (newobj v)) as [t1 v1] eqn:E1.
    destruct (textstr16 d (at_desc a) v1) as [t2 v2] eqn:E2.
    pose proof (textstr16_writes d (at_name a) (newobj v)) as W1. rewrite E1 in W1. cbn [snd] in W1.
    pose proof (textstr16_writes d (at_desc a) v1) as W2. rewrite E2 in W2. cbn [snd] in W2.
    pose proof (writes_trans _ _ _ _ _ W1 W2) as W. cbn [app] in W.
    eexists. split.
    { eapply adds_save; [|eapply (adds_trans _ _ _ _ [_]); [exact A1|]; apply adds_obj; apply writes_snoc; exact W].
      discriminate. }
    intros Hok. exists a. split; [reflexivity|]. right. split; [lia|].
    eexists b1, _. split; [|split; [split; [exact (proj1 S1)|split; [exact (proj2 S1)|]]|]].
    - cbn [app]. rewrite Hv. replace (w_n w + 1 + 1) with (w_n w + 2) by lia. reflexivity.
    - split; [reflexivity|].
      assert (Fv : fresh (newobj v)) by (apply newobj_fresh, (ad_cip _ _ _ A1 Hc)).
      destruct (utf8toutf16 (at_name a) true) as [n16| |] eqn:E16.
      2,3: exfalso; apply ok_save, ok_out, ok_out, (wr_ok _ _ _ W2) in Hok; unfold textstr16, utf16 in E1; rewrite E16 in E1;
        match type of E1 with textstr _ ?b ?u = _ => pose proof (textstr_writes d b u) as X end; rewrite E1 in X; apply (wr_ok _ _ _ X), ok_panic in Hok; exact Hok.
      exists n16. eexists. split; [reflexivity|].
      assert (Et : t1 = bs "(" +++ escape (cipher d (w_n w + 1 + 1) n16) +++ bs ")").
      { unfold textstr16, utf16 in E1. rewrite E16 in E1. pose proof (textstr_fresh d n16 (newobj v) Fv) as X. rewrite E1, newobj_n in X. cbn [fst] in X. rewrite <- Hv. exact X. }
      rewrite Et. cbn [app]. rewrite <- ?app_assoc. reflexivity.
    - split.
      + cbn [app]. unfold occurs.
        exists (bs "<< /Type /Filespec /F () /UF " +++ t1 +++ bs " "), (bs " /Desc " +++ t2 +++ nl +++ bs ">>" +++ nl).
        rewrite <- ?app_assoc. reflexivity.
      + cbn [w_tab save set_tab out set_buf w_n].
        assert (T : forall s v v', textstr16 d s v = (fst (textstr16 d s v), v') -> w_tab v' = w_tab v).
        { clear. intros s v v' H. pose proof (f_equal snd H) as H'. cbn [snd] in H'. rewrite <- H'. clear.
          unfold textstr16, utf16, textstr, encrypt. destruct (utf8toutf16 s true); destruct (d_protect d); try reflexivity;
          now destruct (xor_stream _ _). }
        f_equal; [f_equal|].
        * rewrite (wr_n _ _ _ W), newobj_n. lia.
        * rewrite (T (at_desc a) v1 v2) by (now rewrite E2). rewrite (T (at_name a) (newobj v) v1) by (now rewrite E1).
          rewrite newobj_tab. unfold v, write_file. transitivity (w_tab (newobj w)); [|apply newobj_tab].
          cbv zeta. cbn [w_tab out set_buf]. unfold putstream, encrypt. destruct (d_protect d); [|reflexivity].
          destruct (xor_stream _ _). reflexivity.
  Qed.

  (** ** Pages *)
  Lemma link_annots_grow l w t w' : link_annots d l w = (t, w') -> grow w w'.
  Proof.
    revert w t w'. induction l as [|lk l IH]; intros w t w'; cbn [link_annots].
    - intros H. injection H as <- <-. apply grow_refl.
    - destruct (lk_link lk =? 0).
      + destruct (textstr d (lk_uri lk) w) as [t1 w1] eqn:E1. destruct (link_annots d l w1) as [t2 w2] eqn:E2.
        intros H. injection H as <- <-. eapply grow_trans; [eapply textstr_grow, E1|eauto].
      + destruct (at_ (d_links d) (lk_link lk)) as [[p y]|].
        * destruct (link_annots d l w) as [t2 w2] eqn:E2. intros H. injection H as <- <-. eauto.
        * destruct (link_annots d l (panic w)) as [t2 w2] eqn:E2. intros H. injection H as <- <-.
          eapply grow_trans; [|eapply IH, E2]. apply grow_panic, grow_refl.
  Qed.
  Lemma annot_links_grow l w t w' : annot_links d l w = (t, w') -> grow w w'.
  Proof.
    revert w t w'. induction l as [|an l IH]; intros w t w'; cbn [annot_links].
    - intros H. injection H as <- <-. apply grow_refl.
    - cbv zeta. destruct (at_ (d_atts d) (an_att an)) as [a|].
      + destruct (textstr16 d _ w) as [t1 w1] eqn:E1. destruct (textstr16 d _ w1) as [t2 w2] eqn:E2.
        destruct (annot_links d l w2) as [t3 w3] eqn:E3. intros H. injection H as <- <-.
        eapply grow_trans; [eapply textstr16_grow, E1|]. eapply grow_trans; [eapply textstr16_grow, E2|eauto].
      + destruct (textstr16 d _ (panic w)) as [t1 w1] eqn:E1. destruct (textstr16 d _ w1) as [t2 w2] eqn:E2.
        destruct (annot_links d l w2) as [t3 w3] eqn:E3. intros H. injection H as <- <-.
        eapply grow_trans; [apply grow_panic, grow_refl|].
        eapply grow_trans; [eapply textstr16_grow, E1|]. eapply grow_trans; [eapply textstr16_grow, E2|eauto].
  Qed.
  Lemma link_annots_dest l w lk p y :
    In lk l -> lk_link lk <> 0 -> at_ (d_links d) (lk_link lk) = Some (p, y) ->
    occurs (bs "/Dest [" +++ dec (1 + 2 * p) +++ bs " 0 R") (fst (link_annots d l w)).
  Proof.
    revert w. induction l as [|x l IH]; intros w Hin Hne Hat; [easy|]. cbn [link_annots].
    destruct Hin as [->|Hin].
    - replace (lk_link lk =? 0) with false by lia. rewrite Hat. destruct (link_annots d l w) as [r w2]. cbn [fst].
      match goal with |- occurs _ (?h +++ (_ +++ _ +++ _ +++ ?y +++ ?z) +++ ?r) =>
        exists h, (bs " /XYZ 0 " +++ y +++ z +++ r) end.
      rewrite <- ?app_assoc. reflexivity.
    - assert (G : forall a b, occurs b a -> forall c, occurs b (c +++ a)).
      { intros a b (p1 & p2 & ->) c. exists (c +++ p1), p2. now rewrite <- ?app_assoc. }
      destruct (lk_link x =? 0).
      + destruct (textstr d (lk_uri x) w) as [t1 w1]. specialize (IH w1 Hin Hne Hat). destruct (link_annots d l w1). cbn [fst] in *. now do 2 apply G.
      + destruct (at_ (d_links d) (lk_link x)) as [[p' y']|].
        * specialize (IH w Hin Hne Hat). destruct (link_annots d l w). cbn [fst] in *. now do 2 apply G.
        * specialize (IH (panic w) Hin Hne Hat). destruct (link_annots d l (panic w)). cbn [fst] in *. now do 2 apply G.
  Qed.

  (** the destination text of every internal link of the page is in [t] *)
  Definition dests_in (pg : page (e_num E)) (t : bytes) : Prop :=
    forall lk p y, In lk (pg_links pg) -> lk_link lk <> 0 -> at_ (d_links d) (lk_link lk) = Some (p, y) ->
      occurs (bs "/Dest [" +++ dec (1 + 2 * p) +++ bs " 0 R") t.

  Lemma page_head_writes pg w :
    exists t, writes w (page_head d pg w) (bs "<</Type /Page" +++ nl +++ bs "/Parent 1 0 R" +++ nl +++ t) /\ dests_in pg t /\
      (ok (page_head d pg w) -> w_tab (page_head d pg w) = w_tab w /\
         page_entries d (att_of d (w_tab w)) (e_shuffle E 3 _ (pg_boxes pg)) (version2 d) pg t).
  Proof.
    assert (X : exists t, writes w (page_head d pg w) (bs "<</Type /Page" +++ nl +++ bs "/Parent 1 0 R" +++ nl +++ t) /\ dests_in pg t); cycle 1.
    { destruct X as (t & W & D). exists t. split; [exact W|]. split; [exact D|]. intros Ho. destruct (page_head_text d pg w Ho) as (T & t' & B & P).
      split; [exact T|]. replace t with t'; [exact P|]. rewrite (wr_buf _ _ _ W) in B. apply app_inv_head in B.
      do 4 apply app_inv_head in B. now symmetry. }
    unfold page_head. cbv zeta.
    set (w1 := out (bs "/Parent 1 0 R") (out (bs "<</Type /Page") w)).
    assert (W1 : writes w w1 (bs "<</Type /Page" +++ nl +++ bs "/Parent 1 0 R" +++ nl)).
    { pose proof (writes_snoc _ _ _ (bs "/Parent 1 0 R") (writes_out (bs "<</Type /Page") w)) as H.
      rewrite <- ?app_assoc in H. exact H. }
    match goal with |- context [out (bs "/Resources 2 0 R") ?x] => set (w2 := out (bs "/Resources 2 0 R") x) end.
    assert (W2 : grow w1 w2).
    { apply grow_out. apply grow_fold.
      - intros [t [[[x y] wd] ht]] v. apply grow_out, grow_refl.
      - destruct (pg_size pg) as [[wd ht]|]; [apply grow_out|]; apply grow_refl. }
    destruct W2 as [t2 W2].
    assert (G : exists t w3, writes w2 w3 t /\ dests_in pg t /\
       w3 = (if 0 <? zlen (pg_links pg) + zlen (pg_annots pg) then
               let (t1, w) := link_annots d (pg_links pg) w2 in
               let (t2, w) := annot_links d (pg_annots pg) w in
               out (bs "/Annots [" +++ t1 +++ t2 +++ bs "]") w
             else w2)).
    { destruct (0 <? zlen (pg_links pg) + zlen (pg_annots pg)) eqn:Ec.
      - destruct (link_annots d (pg_links pg) w2) as [t1 w3] eqn:E1. destruct (annot_links d (pg_annots pg) w3) as [t3 w4] eqn:E3.
        destruct (link_annots_grow _ _ _ _ E1) as [s1 G1]. destruct (annot_links_grow _ _ _ _ E3) as [s3 G3].
        eexists _, _. split; [|split; [|reflexivity]].
        + apply writes_snoc. eapply writes_trans; [exact G1|exact G3].
        + intros lk p y H1 H2 H3. pose proof (link_annots_dest _ w2 _ _ _ H1 H2 H3) as O. rewrite E1 in O. cbn [fst] in O.
          apply occurs_app_r. apply occurs_app_l. apply occurs_app_r. now apply occurs_app_l.
      - exists [], w2. split; [apply writes_refl|split; [|reflexivity]].
        intros lk p y H1. exfalso. destruct (pg_links pg); [destruct H1|]. rewrite zlen_cons in Ec.
        pose proof (zlen_nonneg l0). pose proof (zlen_nonneg (pg_annots pg)). lia. }
    destruct G as (t3 & w3 & G1 & G2 & G3). rewrite <- G3. clear G3.
    assert (G4 : grow w3 (if bltb (bs "1.3") (version2 d) then out (bs "/Group <</Type /Group /S /Transparency /CS /DeviceRGB>>") w3 else w3)).
    { destruct (bltb _ _); [apply grow_out|]; apply grow_refl. }
    destruct G4 as [t4 G4]. exists (t2 +++ t3 +++ t4). split.
    - pose proof (writes_trans _ _ _ _ _ (writes_trans _ _ _ _ _ (writes_trans _ _ _ _ _ W1 W2) G1) G4) as H.
      rewrite <- ?app_assoc in H. exact H.
    - intros lk p y H1 H2 H3. apply occurs_app_r, occurs_app_l. eapply G2; eauto.
  Qed.

  (** the bytes of the content stream of a page *)
  Definition page_data (pg : page (e_num E)) : bytes :=
    let c := replace_aliases d (pg_content pg) in if d_compress d then e_zlib E c else c.

  (** the dictionary of the content stream of a page *)
  Definition content_dict (pg : page (e_num E)) : bytes :=
    (if d_compress d then bs "<</Filter /FlateDecode /Length " else bs "<</Length ") +++ dec (zlen (page_data pg)) +++ bs ">>" +++ nl.

  (** the objects of a page; its dictionary is described when the assembly does not fail ([fine]) *)
  Definition page_objs (tab : list (slot * Z)) (fine : Prop) (pg : page (e_num E)) (k : Z) (os : list (Z * bytes)) : Prop :=
    exists t body, os = [obj k (bs "<</Type /Page" +++ nl +++ bs "/Parent 1 0 R" +++ nl +++ t +++ bs "/Contents " +++ dec (k + 1) +++ bs " 0 R>>" +++ nl);
                         obj (k + 1) body]
      /\ dests_in pg t /\ stream_body body (cipher d (k + 1) (page_data pg))
      /\ (fine -> page_entries d (att_of d tab) (e_shuffle E 3 _ (pg_boxes pg)) (version2 d) pg t)
      /\ body = content_dict pg +++ stream_text (cipher d (k + 1) (page_data pg)).

  Lemma adds_eq w w' os os' : adds w w' os -> os = os' -> adds w w' os'.
  Proof. now intros H <-. Qed.
  Lemma put_page_adds pg w : cipok w -> exists os, adds w (put_page d pg w) os /\ page_objs (w_tab w) (ok (put_page d pg w)) pg (w_n w + 1) os /\
    (ok (put_page d pg w) -> w_tab (put_page d pg w) = w_tab w).
  Proof.
    intros Hc. unfold put_page. cbv zeta. destruct (page_head_writes pg (newobj w)) as (t & W & D & PE).
    set (v := page_head d pg (newobj w)) in *.
    assert (Hn : w_n v = w_n w + 1) by (rewrite (wr_n _ _ _ W); apply newobj_n).
    pose proof (adds_obj _ _ _ (writes_snoc _ _ _ (bs "/Contents " +++ dec (w_n v + 1) +++ bs " 0 R>>") W)) as A1.
    set (u := out (bs "endobj") _) in *.
    assert (Hu : w_n u = w_n w + 1) by (rewrite (ad_n _ _ _ A1); reflexivity).
    assert (A2 : adds u
      (out (bs "endobj")
       (if d_compress d
        then putstream d (e_zlib E (replace_aliases d (pg_content pg)))
              (out (bs "<</Filter /FlateDecode /Length " +++ dec (zlen (e_zlib E (replace_aliases d (pg_content pg)))) +++ bs ">>") (newobj u))
        else putstream d (replace_aliases d (pg_content pg))
              (out (bs "<</Length " +++ dec (zlen (replace_aliases d (pg_content pg))) +++ bs ">>") (newobj u))))
      [obj (w_n u + 1) (content_dict pg +++ stream_text (cipher d (w_n u + 1) (page_data pg)))]).
    { pose proof (ad_cip _ _ _ A1 Hc) as Hcu. unfold page_data, content_dict, page_data. destruct (d_compress d).
      - eapply adds_eq; [apply (adds_stream d u); [exact Hcu|apply writes_out|reflexivity]|]. rewrite <- ?app_assoc. reflexivity.
      - eapply adds_eq; [apply (adds_stream d u); [exact Hcu|apply writes_out|reflexivity]|]. rewrite <- ?app_assoc. reflexivity. }
    assert (S : stream_body (content_dict pg +++ stream_text (cipher d (w_n u + 1) (page_data pg))) (cipher d (w_n u + 1) (page_data pg))).
    { exists (content_dict pg). split; [unfold stream_text; rewrite <- ?app_assoc; reflexivity|].
      unfold zlength. fold (zlen (cipher d (w_n u + 1) (page_data pg))). rewrite cipher_len. unfold content_dict.
      destruct (d_compress d).
      - change (bs "<</Filter /FlateDecode /Length ") with (bs "<</Filter /FlateDecode " +++ bs "/Length "). rewrite <- app_assoc.
        apply declared_length_app; [reflexivity|apply zlen_nonneg|reflexivity].
      - change (bs "<</Length ") with (bs "<<" +++ bs "/Length "). rewrite <- app_assoc.
        apply declared_length_app; [reflexivity|apply zlen_nonneg|reflexivity]. }
    set (body := content_dict pg +++ stream_text (cipher d (w_n u + 1) (page_data pg))) in *. assert (Eb : body = content_dict pg +++ stream_text (cipher d (w_n u + 1) (page_data pg))) by reflexivity. clearbody body.
    eexists. split; [eapply adds_trans; [exact A1|exact A2]|].
    rewrite newobj_tab in PE. match type of A2 with adds _ ?x _ => assert (OK : ok x -> ok v) end.
    { intros O. apply (ad_ok _ _ _ A2) in O. do 2 apply ok_out in O. exact O. }
    split.
    - rewrite Hu in *. rewrite Hn. exists t, body. cbn [app]. rewrite <- ?app_assoc.
      split; [reflexivity|]. split; [exact D|]. split; [exact S|]. split; [|exact Eb]. intros O. now apply PE, OK.
    - intros O. apply OK in O. destruct (PE O) as [T _].
      assert (G : forall b v, w_tab (putstream d b v) = w_tab v).
      { clear. intros b v. unfold putstream, encrypt. destruct (d_protect d); [|reflexivity]. now destruct (xor_stream _ b). }
      rewrite tab_out. assert (Tu : w_tab (newobj u) = w_tab w) by (rewrite newobj_tab; exact T).
      destruct (d_compress d); rewrite G, tab_out; exact Tu.
  Qed.

  Fixpoint odd_from (k : Z) (m : nat) : list Z := match m with O => [] | S m' => k :: odd_from (k + 2) m' end.

  Lemma put_page_list_adds l w kids :
    cipok w -> exists os w', put_page_list d l w kids = (w', kids +++ odd_from (w_n w + 1) (length l)) /\ adds w w' os /\
      w_n w' = w_n w + 2 * zlen l /\
      forall i pg, nth_error l i = Some pg ->
        exists a os' c, os = a +++ os' +++ c /\ page_objs (w_tab w) (ok w') pg (w_n w + 1 + 2 * Z.of_nat i) os'.
  Proof.
    revert w kids. induction l as [|pg l IH]; intros w kids Hc.
    - exists [], w. split; [cbn; now rewrite app_nil_r|]. split; [apply adds_refl|]. split; [change (w_n w = w_n w + 2 * 0); lia|].
      intros [|i] pg H; discriminate.
    - cbn [put_page_list]. destruct (put_page_adds pg w Hc) as (o1 & A1 & P1 & T1).
      pose proof P1 as P1'. destruct P1' as (t & body & Eo & _).
      assert (Hn : w_n (put_page d pg w) = w_n w + 2) by (rewrite (ad_n _ _ _ A1), Eo; reflexivity).
      destruct (IH (put_page d pg w) (kids +++ [w_n w + 1]) (ad_cip _ _ _ A1 Hc)) as (o2 & w' & R & A2 & N2 & P2).
      exists (o1 +++ o2), w'. split; [|split; [eapply adds_trans; eauto|split]].
      + rewrite R. cbn [length odd_from]. rewrite <- app_assoc. cbn [app]. do 4 f_equal. lia.
      + rewrite zlen_cons. lia.
      + intros [|i] q H.
        * injection H as <-. exists [], o1, o2. split; [reflexivity|]. replace (w_n w + 1 + 2 * Z.of_nat 0) with (w_n w + 1) by lia.
          destruct P1 as (t1 & b1 & Q1 & Q2 & Q3 & Q4 & Q5). exists t1, b1. split; [exact Q1|]. split; [exact Q2|]. split; [exact Q3|]. split; [|exact Q5].
          intros O. apply Q4. exact (ad_ok _ _ _ A2 O).
        * cbn in H. destruct (P2 i q H) as (a & o & c & -> & P). exists (o1 +++ a), o, c. split; [now rewrite <- ?app_assoc|].
          replace (w_n w + 1 + 2 * Z.of_nat (S i)) with (w_n (put_page d pg w) + 1 + 2 * Z.of_nat i) by lia.
          destruct P as (t1 & b1 & Q1 & Q2 & Q3 & Q4 & Q5). exists t1, b1. split; [exact Q1|]. split; [exact Q2|]. split; [exact Q3|]. split; [|exact Q5].
          intros O. rewrite <- (T1 (ad_ok _ _ _ A2 O)). exact (Q4 O).
  Qed.
End Parts.
