(** C71 The trailer, the information dictionary and the catalog. *)
From Verif Require Import Base TextModel TextSpec TextProofs Crypto DocModel DocSpec DocSort DocProofs DocWalk PageSpec DocPage DocParts DocRes DocRes2 DocEnd DocXref DocLayout DocFile OutlineSpec DocOutline DocBack DocProps DocProps2
  ResSpec ResProofs ResProofs2 ResProofs3 ResProofs4 ResProofs5 CatSpec CatProofs.
From Coq Require Import String Permutation.
Open Scope Z_scope.
Notation length := List.length.
Local Notation "a +++ b" := (List.app a b) (at level 60, right associativity, only parsing).

(** the trailer of a file names catalog [root] and information dictionary [info] *)
Definition trailer_names (file : bytes) (root info : Z) : Prop :=
  exists x rest entries t, startxref file x /\ read_table (skipn (Z.to_nat x) file) = Some (entries, rest) /\
    rest = line (bs "trailer") +++ line (bs "<<") +++ line (bs "/Size " +++ dec (zlen entries)) +++ line (bs "/Root " +++ ref root) +++ line (bs "/Info " +++ ref info) +++ t.
(** [m] are the entries [l] with what is stored for them: the values themselves, if the document is not protected *)
Definition entries_stored {E : env} (d : doc (e_num E)) (l m : list (bytes * bytes)) : Prop :=
  Forall2 (fun e f => fst f = fst e /\ zlength (snd f) = zlength (snd e) /\ (d_protect d = None -> snd f = snd e)) l m.

(** Partial: under [resources_sound]; the destinations of the view are the literal "3 0 R" (see C16); the values of the information
    dictionary of a protected document are not described (see C33); what is missing for the catalog is refuted below *)
Theorem C71_catalog_partial :
  forall (E : env) (d : doc (e_num E)) (pre : bytes),
    well_formed d -> finished d pre -> resources_sound d -> zlength (file_of d pre) < 10 ^ 10 ->
    let file := file_of d pre in
    exists n outlines layers script files entries,
      trailer_names file n (n - 1) /\
      object_in file (n - 1) (info_text entries) /\ entries_stored d (info_entries d) entries /\
      object_in file n (catalog_text (d_zoom d) (d_layout d) outlines layers (d_pane d) script files) /\
      outlines_lead d (object_in file) (stored d) outlines /\ layers_lead d (object_in file) (stored d) layers /\
      script_lead d (object_in file) (stored d) script /\ files_lead d (object_in file) (stored d) files.
Proof.
  intros E d pre W F RS Sz file. unfold file. destruct (enddoc_assembled d pre (well_formed_inputs d W) F) as (os & ps & oa & A).
  pose proof (fun k b => lookup d _ _ _ _ _ A Sz k b) as LK. fold (file_of d pre) in LK.
  destruct (as_end _ _ _ _ _ _ A) as (w2 & o1 & w6 & ti & tc & n & C2 & N1 & N2 & H2 & Hl & Hc & Hok & Ha & Hi & Ai & Ii & Ac & Ic & C6 & OW & OS & JS & Q).
  set (w3 := put_pages d w2) in *. set (w7 := put_info_obj d w6) in *. set (fin := w_n (enddoc d (w_init pre))) in *.
  destruct (all_stages d (wf_order _ W) RS (wf_ptr _ W) (in_imp _ (well_formed_inputs d W)) w3 o1) as (AL & Qk); auto.
  assert (Ni : w_n w6 + 1 = fin - 1). { pose proof (ad_nums _ _ _ Ai) as X. cbn [map length nums fst obj] in X. congruence. }
  assert (Nc : w_n w7 + 1 = fin). { pose proof (ad_nums _ _ _ Ac) as X. cbn [map length nums fst obj] in X. congruence. }
  rewrite <- Ni in Ai. rewrite <- Nc in Ac.
  destruct (put_info_obj_text d w6 ti Ai) as (m & Sm & ->).
  pose proof (put_catalog_obj_text d w7 tc Ac) as ->.
  exists fin, (cat_outlines d (w_tab w7)), (layer_nums (w_tab w7) 0 (d_layers d)), (cat_js d (w_tab w7)), (att_nums d (w_tab w7)), m.
  split.
  { destruct (tables d _ _ _ _ _ A Sz) as (x & offs & enc & rest & Sx & Fx & Hle & R & Er & Eb & Ex & Hoff & He).
    fold fin in R, Er, Hle.
    exists x, rest. eexists. eexists. split; [exact Sx|]. split; [exact R|]. rewrite Er. unfold line, ref, trailer_text. change eol with nl.
    match goal with |- context [dec (zlen ?e)] => replace (zlen e) with (fin + 1) end.
    - rewrite <- ?app_assoc. reflexivity.
    - rewrite zlen_cons. unfold zlen in *. rewrite map_length. lia. }
  split; [now apply LK|]. split; [exact Sm|]. split; [now apply LK|].
  assert (Mono : forall k b, Oin o1 k b -> object_in (file_of d pre) k b) by (intros k b Hb; apply LK; now apply Hi).
  split; [|split; [|split]].
  - unfold outlines_lead, cat_outlines. destruct (d_outlines d) as [|o l] eqn:Eo; [reflexivity|]. split; [discriminate|].
    assert (Hne : d_outlines d <> []) by (rewrite Eo; discriminate).
    assert (Es : num_of (w_tab w7) SOutl = n + zlen (d_outlines d)). { rewrite Eo. rewrite <- OS by discriminate. reflexivity. }
    unfold outlines_written in OW. destruct (OW Hne) as [O1 O2].
    set (lv := map (@ou_level (e_num E)) (d_outlines d)) in *.
    assert (Hx : exists x, nth_error (fst (link_outlines lv)) 0 = Some x).
    { destruct (nth_error (fst (link_outlines lv)) 0) eqn:Ex; [eauto|]. apply nth_error_None in Ex. unfold link_outlines in Ex.
      rewrite link_loop_length, repeat_length in Ex. unfold lv in Ex. rewrite map_length, Eo in Ex. cbn [length] in Ex. lia. }
    destruct Hx as (x & Hx). assert (Ho : nth_error (d_outlines d) 0 = Some o) by (rewrite Eo; reflexivity).
    destruct (O1 0%nat o x Ho Hx) as (body & Hb & (t & y & Ebo & Ht)). rewrite Z.add_0_r in Hb, Ht.
    exists n, (n + lru_get 0 (snd (link_outlines lv))). split.
    + rewrite Es. apply LK in O2. unfold outline_root in O2. unfold line, ref. change eol with nl. rewrite <- ?app_assoc in O2. rewrite <- ?app_assoc. exact O2.
    + exists o. eexists. split; [reflexivity|]. apply LK in Hb. rewrite Ebo in Hb. cbn [fst snd] in Hb.
      pose (w := {| w_buf := []; w_n := n; w_offs := []; w_tab := []; w_cip := None; w_err := false; w_panic := false |}).
      rewrite (Ht w) in Hb; [|intros mm st X; discriminate X|reflexivity]. cbn [fst] in Hb. rewrite (textstr_fresh d _ w) in Hb by (intros mm st X; discriminate X).
      cbn [w_n w] in Hb. rewrite cipher_stored in Hb. unfold line. change eol with nl. rewrite <- ?app_assoc in Hb. rewrite <- ?app_assoc. exact Hb.
  - unfold layers_lead.
    assert (G : forall l pre0, d_layers d = pre0 +++ l -> Forall2 (fun layer p => snd p = la_visible layer /\ layer_at (object_in (file_of d pre)) (stored d) (fst p) layer) l (layer_nums (w_tab w7) (zlen pre0) l)).
    { induction l as [|x l IH]; intros p0 El; [constructor|]. cbn [layer_nums]. constructor.
      - split; [reflexivity|]. cbn [fst]. destruct (al_layer _ _ _ AL (zlen p0, x)) as (k & Fk & Lk).
        { split; [apply zlen_nonneg|]. cbn [fst snd]. rewrite El. unfold zlen. replace (Z.to_nat (Z.of_nat (length p0) - 0)) with (length p0 + 0)%nat by lia.
          rewrite nth_error_app2 by lia. replace (length p0 + 0 - length p0)%nat with 0%nat by lia. reflexivity. }
        cbn [fst snd] in Fk, Lk. unfold num_of. rewrite Q, Fk by discriminate.
        eapply layer_at_mono; [exact Mono| |exact Lk]. apply cipher_stored.
      - specialize (IH (p0 +++ [x])). rewrite zlen_app in IH. change (zlen [x]) with 1 in IH. apply IH. rewrite <- app_assoc. exact El. }
    exact (G (d_layers d) [] eq_refl).
  - unfold script_lead, cat_js. destruct (d_js d) as [js|] eqn:Ej; [|exact I]. destruct (JS js eq_refl) as (k & K1 & K2 & K3).
    exists (k + 1). unfold num_of. fold (saved SJs w7). rewrite K3. rewrite cipher_stored in K2. apply LK in K1. apply LK in K2.
    unfold js_names in K1. unfold js_action in K2. unfold line, ref. change eol with nl. rewrite <- ?app_assoc in K1, K2. rewrite <- ?app_assoc. now split.
  - unfold files_lead, att_nums.
    assert (Q2 : forall p, att_of d (w_tab w7) p = att_of d (w_tab w2) p).
    { intros p. unfold att_of. rewrite Q, Qk by (try discriminate; reflexivity). unfold w3. rewrite put_pages_tab; [reflexivity|exact C2|].
      fold w3. unfold before_dict in Hok. apply put_imported_ok, put_tpls_ok, put_image_list_ok in Hok. now apply (put_res_objects_adds d w3 Hc) in Hok as (_ & _ & _ & Hk). }
    destruct (as_att _ _ _ _ _ _ A) as (AO & ND & HP & HN & r & Er).
    assert (G : forall l, incl l (d_docatts d) -> Forall2 (file_lead d (object_in (file_of d pre)) (stored d)) l (map (att_of d (w_tab w7)) l)).
    { induction l as [|p l IH]; intros Hin; [constructor|]. cbn [map]. constructor; [|apply IH; intros q Hq; apply Hin; now right].
      assert (Hu : In p (used_atts d)) by (unfold used_atts; apply in_or_app; left; apply Hin; now left).
      specialize (HN p Hu). unfold file_lead. destruct (at_ (d_atts d) p) as [a|] eqn:Ea; [|contradiction]. exists a. split; [reflexivity|].
      specialize (HP p). unfold att_num in HP. cbn [w_tab find_slot] in HP. rewrite Ea in HP. rewrite Q2. destruct (at_objnum a =? 0) eqn:Ez.
      - assert (Hps : In p ps) by (apply HP; split; [exact Hu|lia]). apply In_nth_error in Hps as (i & Hips). rewrite (N1 i p Hips).
        assert (G : forall ps k oa i p, att_objs d k ps oa -> nth_error ps i = Some p -> exists a b1 b2, at_ (d_atts d) p = Some a /\
          In (obj (k + 2 * Z.of_nat i) b1) oa /\ In (obj (k + 2 * Z.of_nat i + 1) b2) oa /\
          stream_body b1 (cipher d (k + 2 * Z.of_nat i) (e_zlib E (at_content a))) /\
          occurs (bs "/EF << /F " +++ dec (k + 2 * Z.of_nat i) +++ bs " 0 R >>") b2).
        { clear. induction ps as [|q ps IH]; intros k oa i p H Hi; [destruct i; discriminate Hi|].
          destruct H as (o & os' & -> & (a & b1 & b2 & Ea & -> & S1 & S2) & H2). destruct i as [|i].
          - injection Hi as <-. rewrite Z.add_0_r. exists a, b1, b2. split; [exact Ea|]. split; [now left|]. split; [right; now left|]. tauto.
          - cbn [nth_error] in Hi. destruct (IH _ _ _ _ H2 Hi) as (a' & c1 & c2 & X1 & X2 & X3 & X4 & X5).
            replace (k + 2 * Z.of_nat (Datatypes.S i)) with (k + 2 + 2 * Z.of_nat i) by lia. exists a', c1, c2. split; [exact X1|].
            split; [right; right; exact X2|]. split; [right; right; exact X3|]. tauto. }
        destruct (G _ _ _ _ _ AO Hips) as (a' & b1 & b2 & X1 & X2 & X3 & X4 & X5). rewrite Ea in X1. injection X1 as <-.
        exists (3 + 2 * Z.of_nat i), b1, b2. replace (4 + 2 * Z.of_nat i) with (3 + 2 * Z.of_nat i + 1) by lia.
        split; [apply LK; rewrite Er; apply in_or_app; now left|]. split. { unfold ref. rewrite <- app_assoc. exact X5. }
        split; [apply LK; rewrite Er; apply in_or_app; now left|]. rewrite <- cipher_stored. exact X4.
      - rewrite N2. { unfold att_of. cbn [find_slot]. now rewrite Ea. }
        rewrite HP. intros [_ X]. rewrite X in Ez. discriminate. }
    apply G. intros x Hx. exact Hx.
Qed.
Print Assumptions C71_catalog_partial.

(** ** Concrete documents *)
Definition with_cat (zoom layout : string) (layers : list layer) (pane : bool) (js : option bytes) (xmp : bytes) (marks : list (outline Z)) (atts : list attachment) : doc Z :=
  let d := doc0 [page0 (bs "first") []] 1 atts (map Z.of_nat (seq 0 (length atts))) [] marks None in {|
  d_pages := d_pages d; d_page := d_page d; d_k := d_k d; d_h := d_h d; d_defw := d_defw d; d_defh := d_defh d; d_links := d_links d;
  d_alias := d_alias d; d_aliasnb := d_aliasnb d; d_atts := d_atts d; d_docatts := d_docatts d; d_version := d_version d; d_blendmap := d_blendmap d;
  d_compress := d_compress d; d_sort := d_sort d; d_gsort := d_gsort d; d_protect := d_protect d; d_layers := layers; d_pane := pane;
  d_blends := d_blends d; d_grads := d_grads d; d_spots := d_spots d; d_diffs := d_diffs d; d_files := d_files d; d_fonts := d_fonts d;
  d_images := d_images d; d_tpls := d_tpls d;
  d_impobjs := d_impobjs d; d_imptpls := d_imptpls d; d_js := js; d_xmp := xmp; d_outlines := d_outlines d;
  d_producer := bs "p"; d_title := bs "My (title)"; d_subject := []; d_author := bs "me"; d_keywords := []; d_creator := [];
  d_created := d_created d; d_modified := d_modified d; d_zoom := bs zoom; d_layout := bs layout; d_pagesizes := d_pagesizes d |}.
Lemma with_cat_wf zoom layout layers pane js xmp marks atts : well_formed (E := env0) (with_cat zoom layout layers pane js xmp marks atts).
Proof. constructor; try (intros; contradiction); [reflexivity|apply env0_fmt]. Qed.
Lemma with_cat_rs zoom layout layers pane js xmp marks atts : resources_sound (E := env0) (with_cat zoom layout layers pane js xmp marks atts).
Proof. constructor; try (intros; contradiction); try constructor. Qed.

(** a document with two layers, one of them hidden, a script, two attachments and bookmarks: the conditions hold; its last two objects *)
Definition doc_cat : doc Z := with_cat "fullwidth" "two" [{| la_name := bs "a"; la_visible := true |}; {| la_name := bs "b"; la_visible := false |}] false (Some (bs "run()")) []
  [mark0 (bs "A") 0] [att0; att0].
Example C71_ex : well_formed (E := env0) doc_cat /\ finished (E := env0) doc_cat [] /\ resources_sound (E := env0) doc_cat /\ zlength (file_of (E := env0) doc_cat []) < 10 ^ 10 /\
  rest_of (file_of (E := env0) doc_cat []) 15 [] = info_text [(bs "Producer", bs "p"); (bs "Title", bs "My (title)"); (bs "Author", bs "me"); (bs "CreationDate", bs "D:2000"); (bs "ModDate", bs "D:2001")] /\
  rest_of (file_of (E := env0) doc_cat []) 16 [] =
  bs "<<" +++ eol +++ bs "/Type /Catalog" +++ eol +++ bs "/Pages 1 0 R" +++ eol +++ bs "/OpenAction [3 0 R /FitH null]" +++ eol +++ bs "/PageLayout /TwoColumnLeft" +++ eol +++
  bs "/Outlines 14 0 R" +++ eol +++ bs "/PageMode /UseOutlines" +++ eol +++
  bs "/OCProperties <</OCGs [9 0 R 10 0 R ] /D <</OFF [10 0 R ] /Order [9 0 R 10 0 R ]>>>>" +++ eol +++
  bs "/Names <<" +++ eol +++ bs "/JavaScript 11 0 R" +++ eol +++
  bs "/EmbeddedFiles << /Names [" +++ eol +++ bs " (Attachement1) 4 0 R " +++ eol +++ bs "(Attachement2) 6 0 R  " +++ eol +++ bs "] >>" +++ eol +++ bs ">>" +++ eol +++ bs ">>" +++ eol.
Proof.
  split; [apply with_cat_wf|]. split; [split; vm_compute; reflexivity|]. split; [apply with_cat_rs|].
  split; [vm_compute; reflexivity|]. split; vm_compute; reflexivity.
Qed.

(** *** Not every catalog is a dictionary: with bookmarks and an open layer pane it has two entries /PageMode *)
Definition doc_two : doc Z := with_cat "fullwidth" "two" [{| la_name := bs "a"; la_visible := true |}] true None [] [mark0 (bs "A") 0] [].
Theorem C71_page_mode_refuted :
  ~ (forall (E : env) (d : doc (e_num E)) (pre : bytes), well_formed d -> finished d pre -> resources_sound d ->
       forall n a b c, object_in (file_of d pre) n (line (bs "<<") +++ line (bs "/Type /Catalog") +++ a +++ eol +++ bs "/PageMode " +++ b +++ eol +++ bs "/PageMode " +++ c) -> False).
Proof.
  intros H. pose (f := file_of (E := env0) doc_two []).
  apply (H env0 doc_two [] (with_cat_wf _ _ _ _ _ _ _ _) ltac:(split; vm_compute; reflexivity) (with_cat_rs _ _ _ _ _ _ _ _) 9
    (bs "/Pages 1 0 R" +++ eol +++ bs "/OpenAction [3 0 R /FitH null]" +++ eol +++ bs "/PageLayout /TwoColumnLeft" +++ eol +++ bs "/Outlines 7 0 R")
    (bs "/UseOutlines" +++ eol +++ bs "/OCProperties <</OCGs [5 0 R ] /D <</OFF [] /Order [5 0 R ]>>>>")
    (bs "/UseOC" +++ eol +++ bs "/Names <<" +++ eol +++ bs "/EmbeddedFiles << /Names [" +++ eol +++ bs "  " +++ eol +++ bs "] >>" +++ eol +++ bs ">>" +++ eol +++ bs ">>" +++ eol)).
  apply (check_object_in _ (find_xref f 0)). vm_compute. reflexivity.
Qed.
Print Assumptions C71_page_mode_refuted.

(** *** The XMP metadata of a document is written as an object, but nothing refers to it *)
Definition doc_xmp : doc Z := with_cat "fullwidth" "two" [] false None (bs "<x/>") [] [].
Theorem C71_metadata_refuted :
  ~ (forall (E : env) (d : doc (e_num E)) (pre : bytes), well_formed d -> finished d pre -> resources_sound d -> d_xmp d <> [] ->
       exists k, occurs (bs "/Metadata " +++ dec k +++ bs " 0 R") (file_of d pre)).
Proof.
  intros H. destruct (H env0 doc_xmp [] (with_cat_wf _ _ _ _ _ _ _ _) ltac:(split; vm_compute; reflexivity) (with_cat_rs _ _ _ _ _ _ _ _)) as (k & a & b & X); [discriminate|].
  pose (f := file_of (E := env0) doc_xmp []).
  (* the only place is the type of the object *)
  assert (Only : forall u v, f = u +++ bs "/Metadata " +++ v -> firstn 1 v = bs "/").
  { assert (G : forall s : bytes, (fix chk (s : bytes) : bool := (if prefixb (bs "/Metadata ") s then prefixb (bs "/") (skipn 10 s) else true) && match s with [] => true | _ :: t => chk t end) s = true ->
       forall u v, s = u +++ bs "/Metadata " +++ v -> firstn 1 v = bs "/").
    { induction s as [|c s IH]; intros Hs u v E.
      - destruct u; discriminate E.
      - apply andb_prop in Hs as [H1 H2]. destruct u as [|c' u].
        + cbn [app] in E. rewrite E in H1. replace (prefixb (bs "/Metadata ") (bs "/Metadata " +++ v)) with true in H1 by (symmetry; apply prefixb_spec; now exists v).
          change (skipn 10 (bs "/Metadata " +++ v)) with v in H1. apply prefixb_spec in H1 as (r & ->). reflexivity.
        + injection E as _ E. exact (IH H2 u v E). }
    apply G. vm_compute. reflexivity. }
  fold f in X. rewrite <- ?app_assoc in X. specialize (Only a _ X).
  unfold dec in Only. destruct (k <? 0); [discriminate Only|].
  pose proof (dec_nat_digits k) as D. destruct (dec_nat k) as [|c l]; [discriminate Only|]. cbn [app firstn] in Only. injection Only as ->.
  assert (Hd := Forall_inv D). revert Hd. unfold is_digit. lia.
Qed.
Print Assumptions C71_metadata_refuted.

(** *** The names of the attachments are not in their order from the tenth on, although a name tree must be sorted *)
Definition doc_ten : doc Z := with_cat "fullwidth" "two" [] false None [] [] (repeat att0 10).
Theorem C71_name_tree_refuted :
  ~ (forall (E : env) (d : doc (e_num E)) (pre : bytes), well_formed d -> finished d pre -> resources_sound d ->
       forall n a i k b j l c, object_in (file_of d pre) n (line (bs "<<") +++ line (bs "/Type /Catalog") +++ a +++ bs "/EmbeddedFiles << /Names [" +++ eol +++ bs " " +++
            b +++ bs "(" +++ i +++ bs ") " +++ ref k +++ bs " " +++ eol +++ bs "(" +++ j +++ bs ") " +++ ref l +++ c) -> ~ In 41 i -> ~ In 41 j -> bltb i j = true).
Proof.
  intros H. pose (f := file_of (E := env0) doc_ten []).
  assert (X : bltb (bs "Attachement9") (bs "Attachement10") = true); [|discriminate X].
  pose (b0 := bs "(Attachement1) 4 0 R " +++ eol +++ bs "(Attachement2) 6 0 R " +++ eol +++ bs "(Attachement3) 8 0 R " +++ eol +++ bs "(Attachement4) 10 0 R " +++ eol +++
    bs "(Attachement5) 12 0 R " +++ eol +++ bs "(Attachement6) 14 0 R " +++ eol +++ bs "(Attachement7) 16 0 R " +++ eol +++ bs "(Attachement8) 18 0 R " +++ eol).
  apply (H env0 doc_ten [] (with_cat_wf _ _ _ _ _ _ _ _) ltac:(split; vm_compute; reflexivity) (with_cat_rs _ _ _ _ _ _ _ _) 26
    (bs "/Pages 1 0 R" +++ eol +++ bs "/OpenAction [3 0 R /FitH null]" +++ eol +++ bs "/PageLayout /TwoColumnLeft" +++ eol +++ bs "/Names <<" +++ eol)
    (bs "Attachement9") 20 b0 (bs "Attachement10") 22 (bs "  " +++ eol +++ bs "] >>" +++ eol +++ bs ">>" +++ eol +++ bs ">>" +++ eol)).
  - apply (check_object_in _ (find_xref f 0)). vm_compute. reflexivity.
  - vm_compute. intuition discriminate.
  - vm_compute. intuition discriminate.
Qed.
Print Assumptions C71_name_tree_refuted.

(** *** The layouts TwoPageLeft and TwoPageRight are of PDF 1.5, but the file can say that it is 1.3 *)
Theorem C71_version_refuted :
  ~ (forall (E : env) (d : doc (e_num E)) (pre : bytes), well_formed d -> finished d pre -> resources_sound d -> pre = [] ->
       d_layout d = bs "TwoPageLeft" -> forall v, found_at (file_of d pre) 0 (bs "%PDF-" +++ v +++ eol) -> zlength v = 3 -> bltb v (bs "1.5") = false).
Proof.
  intros H. assert (X : bltb (bs "1.3") (bs "1.5") = false); [|discriminate X].
  apply (H env0 (with_cat "fullwidth" "TwoPageLeft" [] false None [] [] []) [] (with_cat_wf _ _ _ _ _ _ _ _) ltac:(split; vm_compute; reflexivity) (with_cat_rs _ _ _ _ _ _ _ _) eq_refl eq_refl).
  - split; [lia|]. eexists. vm_compute. reflexivity.
  - reflexivity.
Qed.
Print Assumptions C71_version_refuted.
