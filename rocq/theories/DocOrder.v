(** C35: when the assembly does not depend on the order in which maps are visited. *)
From Verif Require Import Base TextModel Crypto DocModel DocSpec DocSort DocProofs DocWalk DocParts DocRes DocRes2 DocEnd DocXref DocLayout DocFile DocBack DocProps DocProps2.
From Coq Require Import String Permutation.
Open Scope Z_scope.
Notation length := List.length.
Local Notation "a +++ b" := (List.app a b) (at level 60, right associativity, only parsing).

(** the same environment with another order for every "range" over a map *)
Definition with_order (E : env) (sh : Z -> forall A, list A -> list A) : env := {|
  e_num := e_num E; e_nadd := e_nadd E; e_nsub := e_nsub E; e_nmul := e_nmul E; e_nopp := e_nopp E; e_ntwo := e_ntwo E;
  e_fmt2 := e_fmt2 E; e_fmt3 := e_fmt3 E; e_fmt5 := e_fmt5 E; e_pct3 := e_pct3 E; e_zlib := e_zlib E; e_md5 := e_md5 E; e_hex := e_hex E;
  e_shuffle := sh; e_to_unicode := e_to_unicode E |}.

Lemma fold_left_ext_in {A B} (f g : A -> B -> A) l : forall a, (forall x b, In b l -> f x b = g x b) -> fold_left f l a = fold_left g l a.
Proof. induction l as [|b l IH]; intros a H; [reflexivity|]. cbn. rewrite (H a b (or_introl eq_refl)). apply IH. intros. apply H. now right. Qed.

Section Order.
  Context (E : env) (sh : Z -> forall A, list A -> list A) (d : doc (e_num E)).
  Local Notation E' := (with_order E sh).
  Local Notation d' := (d : doc (e_num E')).
  (** the code cannot tell the two orders apart *)
  Record same : Prop := {
    sa1 : sh 1 _ (alias_map d) = e_shuffle E 1 _ (alias_map d);
    sa2 : sh 2 _ (alias_map d) = e_shuffle E 2 _ (alias_map d);
    sa3 : forall pg, In pg (d_pages d) -> sh 3 _ (pg_boxes pg) = e_shuffle E 3 _ (pg_boxes pg);
    sa4 : keyed E' 4 (d_sort d) by_key (d_files d) = keyed E 4 (d_sort d) by_key (d_files d);
    sa5 : keyed E' 5 (d_sort d) by_key (d_fonts d) = keyed E 5 (d_sort d) by_key (d_fonts d);
    sa6 : keyed E' 6 (d_sort d) (fun a b => im_w (snd a) <? im_w (snd b)) (d_images d) = keyed E 6 (d_sort d) (fun a b => im_w (snd a) <? im_w (snd b)) (d_images d);
    sa7 : keyed E' 7 (d_sort d) by_key (d_fonts d) = keyed E 7 (d_sort d) by_key (d_fonts d);
    sa8 : keyed E' 8 (d_sort d) by_key (d_tpls d) = keyed E 8 (d_sort d) by_key (d_tpls d);
    sa9 : forall t, In t (sort_tpls (E := E) d) -> keyed E' 9 (d_gsort d) by_key (tpl_images t) = keyed E 9 (d_gsort d) by_key (tpl_images t);
    sa10 : d_impobjs d = [] /\ sh 10 _ (d_impobjs d) = [] /\ e_shuffle E 10 _ (d_impobjs d) = [];
    sa12 : keyed E' 12 (d_sort d) (fun a b => bltb (im_id (snd a)) (im_id (snd b))) (d_images d) = keyed E 12 (d_sort d) (fun a b => bltb (im_id (snd a)) (im_id (snd b))) (d_images d);
    sa13 : keyed E' 13 (d_sort d) by_key (d_tpls d) = keyed E 13 (d_sort d) by_key (d_tpls d);
    sa14 : sh 14 _ (d_imptpls d) = e_shuffle E 14 _ (d_imptpls d);
    sa15 : keyed E' 15 (d_sort d) (fun a b => bltb (fo_id (snd a)) (fo_id (snd b))) (d_fonts d) = keyed E 15 (d_sort d) (fun a b => bltb (fo_id (snd a)) (fo_id (snd b))) (d_fonts d);
    sa16 : sh 16 _ (d_spots d) = e_shuffle E 16 _ (d_spots d);
    sa17 : sh 17 _ (d_spots d) = e_shuffle E 17 _ (d_spots d) }.
  Hypothesis S : same.

  Lemma aliases_eq s : replace_aliases (E := E') d' s = replace_aliases (E := E) d s.
  Proof. unfold replace_aliases. cbn [e_shuffle e_num with_order]. change (alias_map d') with (alias_map d). rewrite (sa1 S), (sa2 S). reflexivity. Qed.
  Lemma page_head_eq pg w : In pg (d_pages d) -> page_head (E := E') d' pg w = page_head (E := E) d pg w.
  Proof. intros H. unfold page_head. cbn [e_shuffle e_num with_order]. rewrite (sa3 S pg H). reflexivity. Qed.
  Lemma put_page_eq pg w : In pg (d_pages d) -> put_page (E := E') d' pg w = put_page (E := E) d pg w.
  Proof. intros H. unfold put_page. rewrite aliases_eq, page_head_eq by exact H. reflexivity. Qed.
  Lemma put_page_list_eq l : forall w kids, (forall pg, In pg l -> In pg (d_pages d)) -> put_page_list (E := E') d' l w kids = put_page_list (E := E) d l w kids.
  Proof.
    induction l as [|pg l IH]; intros w kids H; [reflexivity|]. cbn [put_page_list]. rewrite put_page_eq by (apply H; now left).
    apply IH. intros. apply H. now right.
  Qed.
  Lemma put_pages_eq w : put_pages (E := E') d' w = put_pages (E := E) d w.
  Proof.
    unfold put_pages. change (alias_panics d') with (alias_panics d). cbv zeta. rewrite put_page_list_eq; [reflexivity|].
    intros pg H. eapply In_nth_error in H as (i & Hi). rewrite <- (firstn_skipn (Z.to_nat (d_page d)) (d_pages d)). apply in_or_app. left. eapply nth_error_In, Hi.
  Qed.
  Lemma put_fonts_eq w : put_fonts (E := E') d' w = put_fonts (E := E) d w.
  Proof. unfold put_fonts. cbv zeta. change (e_num E') with (e_num E). rewrite (sa4 S), (sa5 S). reflexivity. Qed.
  Lemma put_res_objects_eq w : put_res_objects (E := E') d' w = put_res_objects (E := E) d w.
  Proof. unfold put_res_objects. cbv zeta. rewrite put_fonts_eq. cbn [e_shuffle e_num with_order]. rewrite (sa17 S). reflexivity. Qed.
  Lemma putstream_eq b w : putstream (E := E') d' b w = putstream (E := E) d b w.
  Proof. reflexivity. Qed.
  Lemma image_dict_eq im w : image_dict (E := E') d' im w = image_dict (E := E) d im w.
  Proof. unfold image_dict. cbv zeta. rewrite putstream_eq. reflexivity. Qed.
  Lemma put_image_eq im w : put_image (E := E') d' im w = put_image (E := E) d im w.
  Proof.
    unfold put_image. cbv zeta. rewrite !image_dict_eq, !putstream_eq.
    destruct (im_smask im) as [[|c m]|]; rewrite ?image_dict_eq; reflexivity.
  Qed.
  Lemma put_images_eq w : put_images (E := E') d' w = put_images (E := E) d w.
  Proof. unfold put_images. change (e_num E') with (e_num E). rewrite (sa6 S). generalize (keyed E 6 (d_sort d) (fun a b => im_w (snd a) <? im_w (snd b)) (d_images d)) (@nil (bytes * Z)). intros l. revert w.
    induction l as [|[k im] l IH]; intros w ins; [reflexivity|]. cbn [put_image_list]. destruct (assoc (im_id im) ins); [apply IH|].
    cbv zeta. assert (Hp : put_image (E := E') d' im w = put_image (E := E) d im w) by apply put_image_eq. rewrite Hp. apply IH.
  Qed.
  Lemma tpl_fonts_eq w : tpl_fonts (E := E') d' w = tpl_fonts (E := E) d w.
  Proof. unfold tpl_fonts. cbv zeta. change (e_num E') with (e_num E). rewrite (sa7 S). reflexivity. Qed.
  Lemma put_tpl_eq t w : In t (sort_tpls (E := E) d) -> put_tpl (E := E') d' t w = put_tpl (E := E) d t w.
  Proof.
    intros H. pose proof (sa9 S t H) as X. destruct t as [ptr id cx cy moved wd ht content images subs]. cbn [tpl_images] in X.
    unfold put_tpl. cbv zeta. change (e_num E') with (e_num E). rewrite X, tpl_fonts_eq. reflexivity.
  Qed.
  Lemma put_tpls_eq w : put_tpls (E := E') d' w = put_tpls (E := E) d w.
  Proof.
    unfold put_tpls. replace (sort_tpls (E := E') d') with (sort_tpls (E := E) d) by (unfold sort_tpls; change (e_num E') with (e_num E); rewrite (sa8 S); reflexivity).
    apply fold_left_ext_in. intros. now apply put_tpl_eq.
  Qed.
  Lemma put_imported_eq w : put_imported (E := E') d' w = put_imported (E := E) d w.
  Proof. unfold put_imported. cbn [e_shuffle e_num with_order]. destruct (sa10 S) as (_ & H1 & H2). cbv zeta. rewrite H1, H2. reflexivity. Qed.
  Lemma put_resource_dict_eq w : put_resource_dict (E := E') d' w = put_resource_dict (E := E) d w.
  Proof.
    unfold put_resource_dict, put_xobjects. cbv zeta. change (e_num E') with (e_num E). rewrite (sa12 S), (sa13 S), (sa15 S). cbn [e_shuffle e_num with_order]. rewrite (sa14 S), (sa16 S). reflexivity.
  Qed.
  Ltac flat f := unfold f; cbv zeta; change (e_num E') with (e_num E).
  Lemma textstr_eq t w : textstr (E := E') d' t w = textstr (E := E) d t w.
  Proof. reflexivity. Qed.
  Lemma textstr16_eq t w : textstr16 (E := E') d' t w = textstr16 (E := E) d t w.
  Proof. reflexivity. Qed.
  Lemma put_outline_eq n e w : put_outline (E := E') d' n e w = put_outline (E := E) d n e w.
  Proof. unfold put_outline. destruct e as [o x]. rewrite textstr_eq. change (e_num E') with (e_num E) in *. destruct (textstr d (ou_text o) (newobj w)). cbv zeta. cbn [with_order e_fmt2 e_nmul e_nsub e_num]. reflexivity. Qed.
  Lemma put_bookmarks_eq w : put_bookmarks (E := E') d' w = put_bookmarks (E := E) d w.
  Proof.
    unfold put_bookmarks. change (e_num E') with (e_num E). destruct (zlen (d_outlines d) =? 0); [reflexivity|].
    destruct (link_outlines _) as [nodes lru]. cbv zeta. rewrite (fold_left_ext_in (fun w0 e => put_outline (E := E') d' (w_n w + 1) e w0) (fun w0 e => put_outline (E := E) d (w_n w + 1) e w0)); [reflexivity|].
    intros. apply put_outline_eq.
  Qed.
  Lemma put_catalog_eq w : put_catalog (E := E') d' w = put_catalog (E := E) d w.
  Proof. flat @put_catalog. reflexivity. Qed.
  Lemma put_trailer_eq w : put_trailer (E := E') d' w = put_trailer (E := E) d w.
  Proof. flat @put_trailer. reflexivity. Qed.
  Lemma info_line_eq k v b w : info_line (E := E') d' k v b w = info_line (E := E) d k v b w.
  Proof. reflexivity. Qed.
  Lemma put_info_eq w : put_info (E := E') d' w = put_info (E := E) d w.
  Proof. flat @put_info. rewrite !info_line_eq. reflexivity. Qed.
  Lemma put_tail_eq w : put_xref (E := E') d' (put_catalog_obj (E := E') d' (put_info_obj (E := E') d' w)) = put_xref (E := E) d (put_catalog_obj (E := E) d (put_info_obj (E := E) d w)).
  Proof.
    unfold put_xref, put_catalog_obj, put_info_obj. cbv zeta. rewrite put_info_eq. rewrite put_catalog_eq. rewrite put_trailer_eq. reflexivity.
  Qed.
  Lemma put_xmp_eq w : put_xmp (E := E') d' w = put_xmp (E := E) d w.
  Proof. flat @put_xmp. rewrite putstream_eq. reflexivity. Qed.
  Lemma put_javascript_eq w : put_javascript (E := E') d' w = put_javascript (E := E) d w.
  Proof. unfold put_javascript. change (e_num E') with (e_num E). destruct (d_js d); [|reflexivity]. cbv zeta. rewrite textstr_eq. reflexivity. Qed.
  Lemma put_encrypt_eq w : put_encrypt (E := E') d' w = put_encrypt (E := E) d w.
  Proof. reflexivity. Qed.
  Lemma embed_eq p w : embed (E := E') d' p w = embed (E := E) d p w.
  Proof. reflexivity. Qed.
  Lemma put_att_eq w : put_annot_attachments (E := E') d' (put_attachments (E := E') d' w) = put_annot_attachments (E := E) d (put_attachments (E := E) d w).
  Proof. rewrite !attachments_fold. change (used_atts (E := E') d') with (used_atts (E := E) d). apply fold_left_ext_in. intros. apply embed_eq. Qed.
  Lemma put_resources_eq w : put_resources (E := E') d' w = put_resources (E := E) d w.
  Proof.
    unfold put_resources. cbv zeta. rewrite put_res_objects_eq. destruct (w_err w); [reflexivity|]. destruct (w_err (put_res_objects (E := E) d w)); [reflexivity|].
    rewrite put_images_eq, put_tpls_eq, put_imported_eq, put_resource_dict_eq, put_javascript_eq, put_encrypt_eq. reflexivity.
  Qed.
  Lemma enddoc_eq w : enddoc (E := E') d' w = enddoc (E := E) d w.
  Proof.
    unfold enddoc. destruct (w_err w); [reflexivity|]. cbv zeta. change (version2 (E := E') d') with (version2 (E := E) d).
    rewrite put_att_eq, put_pages_eq, put_resources_eq. destruct (w_err _); [reflexivity|].
    rewrite put_bookmarks_eq, put_xmp_eq. apply put_tail_eq.
  Qed.
End Order.

(** an order of visiting maps: some permutation, chosen anew at every place and for every map *)
Definition map_order (sh : Z -> forall A, list A -> list A) : Prop := forall site A (l : list A), Permutation (sh site A l) l.

(** documents for which sorting suffices: catalog sorting is on; file, font, template and template image
    maps have distinct keys (as Go maps do); images have distinct widths and content; fonts have distinct
    ids; and there is at most one alias, at most one page box per page, at most one imported template and
    at most one spot color *)
Record sortable {E : env} (d : doc (e_num E)) : Prop := {
  so_sort : d_sort d = true /\ d_gsort d = true;
  so_files : NoDup (map fst (d_files d));
  so_fonts : NoDup (map fst (d_fonts d)) /\ NoDup (map (fun e => fo_id (snd e)) (d_fonts d));
  so_imgs : NoDup (map (fun e => im_w (snd e)) (d_images d)) /\ NoDup (map (fun e => im_id (snd e)) (d_images d));
  so_tpls : NoDup (map fst (d_tpls d));
  so_tplimgs : forall e t, In e (d_tpls d) -> within t (snd e) -> NoDup (map fst (tpl_images t));
  so_alias : zlen (alias_map d) <= 1;
  so_boxes : forall pg, In pg (d_pages d) -> zlen (pg_boxes pg) <= 1;
  so_spots : zlen (d_spots d) <= 1;
  so_imp : d_impobjs d = [] /\ zlen (d_imptpls d) <= 1 }.

Lemma short_order sh site {A} (l : list A) : map_order sh -> zlen l <= 1 -> sh site A l = l.
Proof.
  intros H L. specialize (H site A l). destruct l as [|x [|y l]].
  - now apply Permutation_sym, Permutation_nil in H.
  - now apply Permutation_sym, Permutation_length_1_inv in H.
  - rewrite !zlen_cons in L. pose proof (zlen_nonneg l). lia.
Qed.
Theorem C35_same_file_partial :
  forall (E : env) (d : doc (e_num E)) (pre : bytes) sh1 sh2,
    sortable d -> map_order sh1 -> map_order sh2 ->
    file_of (E := with_order E sh1) d pre = file_of (E := with_order E sh2) d pre.
Proof.
  intros E d pre sh1 sh2 D P1 P2.
  assert (G : forall sh, map_order sh -> enddoc (E := with_order (with_order E sh1) sh) d (w_init pre) = enddoc (E := with_order E sh1) d (w_init pre)).
  { intros sh P. destruct (so_sort _ D) as [D1 D2].
    change (@d_sort (e_num (with_order E sh1)) d = true) in D1. change (@d_gsort (e_num (with_order E sh1)) d = true) in D2.
    assert (Kf : forall {A} site (l : list (bytes * A)), NoDup (map fst l) ->
      keyed (with_order (with_order E sh1) sh) site true by_key l = keyed (with_order E sh1) site true by_key l).
    { intros A site l N. unfold keyed. cbn [e_shuffle with_order]. apply (sort_canonical fst bltb bltb_strict).
      - rewrite (P site _ l). symmetry. apply P1.
      - eapply Permutation_NoDup; [apply Permutation_map; symmetry; apply P|exact N]. }
    assert (Ks : forall {A} site (k : bytes * A -> bytes) (l : list (bytes * A)), NoDup (map k l) ->
      keyed (with_order (with_order E sh1) sh) site true (fun a b => bltb (k a) (k b)) l = keyed (with_order E sh1) site true (fun a b => bltb (k a) (k b)) l).
    { intros A site k l N. unfold keyed. cbn [e_shuffle with_order]. apply (sort_canonical k bltb bltb_strict).
      - rewrite (P site _ l). symmetry. apply P1.
      - eapply Permutation_NoDup; [apply Permutation_map; symmetry; apply P|exact N]. }
    apply (enddoc_eq (with_order E sh1)). constructor; cbn [e_shuffle with_order].
    - rewrite !short_order by (first [exact P | exact P1 | apply (so_alias _ D)]). reflexivity.
    - rewrite !short_order by (first [exact P | exact P1 | apply (so_alias _ D)]). reflexivity.
    - intros pg Hp. rewrite !short_order by (first [exact P | exact P1 | apply (so_boxes _ D pg Hp)]). reflexivity.
    - rewrite D1. apply Kf, (so_files _ D).
    - rewrite D1. apply Kf, (so_fonts _ D).
    - rewrite D1. unfold keyed. cbn [e_shuffle with_order]. apply (sort_canonical (fun e => im_w (snd e)) Z.ltb zltb_strict).
      + rewrite (P 6 _ _). symmetry. apply P1.
      + eapply Permutation_NoDup; [apply Permutation_map; symmetry; apply P|apply (so_imgs _ D)].
    - rewrite D1. apply Kf, (so_fonts _ D).
    - rewrite D1. apply Kf, (so_tpls _ D).
    - intros t Ht. rewrite D2. apply Kf. destruct (sort_tpls_in (E := with_order E sh1) d P1 t Ht) as (e & He & Hw). exact (so_tplimgs _ D e t He Hw).
    - destruct (so_imp _ D) as [X _]. change (@d_impobjs (e_num (with_order E sh1)) d = []) in X. rewrite X. split; [reflexivity|]. split; (apply short_order; [assumption|unfold zlen; cbn; lia]).
    - rewrite D1. apply (Ks _ 12 (fun e => im_id (snd e))), (so_imgs _ D).
    - rewrite D1. apply Kf, (so_tpls _ D).
    - rewrite !short_order by (first [exact P | exact P1 | apply (so_imp _ D)]). reflexivity.
    - rewrite D1. apply (Ks _ 15 (fun e => fo_id (snd e))), (so_fonts _ D).
    - rewrite !short_order by (first [exact P | exact P1 | apply (so_spots _ D)]). reflexivity.
    - rewrite !short_order by (first [exact P | exact P1 | apply (so_spots _ D)]). reflexivity. }
  specialize (G sh2 P2). unfold file_of. change (enddoc (E := with_order E sh2) d (w_init pre)) with (enddoc (E := with_order (with_order E sh1) sh2) d (w_init pre)).
  now rewrite G.
Qed.
Print Assumptions C35_same_file_partial.

(** two spot colors: the file depends on the order the map is visited in, catalog sorting or not *)
Definition set_spots {num} (s : list (bytes * spot)) (d : doc num) : doc num := {|
  d_pages := d_pages d; d_page := d_page d; d_k := d_k d; d_h := d_h d; d_defw := d_defw d; d_defh := d_defh d; d_links := d_links d;
  d_alias := d_alias d; d_aliasnb := d_aliasnb d; d_atts := d_atts d; d_docatts := d_docatts d; d_version := d_version d; d_blendmap := d_blendmap d;
  d_compress := d_compress d; d_sort := d_sort d; d_gsort := d_gsort d; d_protect := d_protect d; d_layers := d_layers d; d_pane := d_pane d;
  d_blends := d_blends d; d_grads := d_grads d; d_spots := s; d_diffs := d_diffs d; d_files := d_files d; d_fonts := d_fonts d;
  d_images := d_images d; d_tpls := d_tpls d;
  d_impobjs := d_impobjs d; d_imptpls := d_imptpls d; d_js := d_js d; d_xmp := d_xmp d; d_outlines := d_outlines d;
  d_producer := d_producer d; d_title := d_title d; d_subject := d_subject d; d_author := d_author d; d_keywords := d_keywords d; d_creator := d_creator d;
  d_created := d_created d; d_modified := d_modified d; d_zoom := d_zoom d; d_layout := d_layout d; d_pagesizes := d_pagesizes d |}.
Definition doc_spots : doc Z :=
  set_spots [(bs "Red", {| sp_id := 1; sp_c := 0; sp_m := 100; sp_y := 100; sp_k := 0 |});
             (bs "Blue", {| sp_id := 2; sp_c := 100; sp_m := 100; sp_y := 0; sp_k := 0 |})] doc_two.
Definition forwards : Z -> forall A, list A -> list A := fun _ _ l => l.
Definition backwards : Z -> forall A, list A -> list A := fun _ A l => rev l.
Theorem C35_refuted :
  map_order forwards /\ map_order backwards /\
  finished (E := with_order env0 forwards) doc_spots [] /\ finished (E := with_order env0 backwards) doc_spots [] /\
  d_sort doc_spots = true /\ d_gsort doc_spots = true /\
  file_of (E := with_order env0 forwards) doc_spots [] <> file_of (E := with_order env0 backwards) doc_spots [].
Proof.
  split; [intros site A l; reflexivity|]. split; [intros site A l; symmetry; apply Permutation_rev|].
  split; [split; vm_compute; reflexivity|]. split; [split; vm_compute; reflexivity|]. split; [reflexivity|]. split; [reflexivity|].
  apply beqb_neq. vm_compute. reflexivity.
Qed.
Print Assumptions C35_refuted.
(** the premise holds for the document with two pages, and for one with two templates *)
Example C35_ex : sortable (E := env0) doc_two /\ sortable (E := env0) doc_tpl.
Proof.
  split; constructor.
  1,11: split; reflexivity.
  1,10: constructor.
  1,9: split; constructor.
  1,8: split; constructor.
  - constructor.
  - intros e t [].
  - vm_compute; discriminate.
  - intros pg [<-|[<-|[]]]; vm_compute; discriminate.
  - vm_compute; discriminate.
  - split; [reflexivity|vm_compute; discriminate].
  - cbn. constructor; [intros [X|[]]; discriminate X|]. constructor; [intros []|constructor].
  - intros e t [<-|[<-|[]]] H; [apply within_out in H as [-> | ->]|apply within_in in H as ->]; constructor.
  - vm_compute; discriminate.
  - intros pg [<-|[]]; vm_compute; discriminate.
  - vm_compute; discriminate.
  - split; [reflexivity|vm_compute; discriminate].
Qed.
