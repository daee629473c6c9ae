(** C62 Every name of the resource dictionary leads to its object. *)
From Verif Require Import Base TextModel Crypto DocModel DocSpec DocSort DocProofs DocWalk DocParts DocRes DocRes2 DocEnd DocXref DocLayout DocFile DocBack DocProps DocProps2 ResSpec ResProofs ResProofs2 ResProofs3 ResProofs4 ImpProofs ResProofs5.
From Coq Require Import String Permutation.
Open Scope Z_scope.
Notation length := List.length.
Local Notation "a +++ b" := (List.app a b) (at level 60, right associativity, only parsing).

Lemma resource_dictionary_mono {E : env} (d : doc (e_num E)) (O O' : Z -> bytes -> Prop) S S' K b :
  (forall k x, O k x -> O' k x) -> (forall k x, S k x = S' k x) -> resource_dictionary d O S K b -> resource_dictionary d O' S' K b.
Proof.
  intros HO HS (fonts & images & templates & imported & states & shadings & layers & spaces & Eb & Im & N1 & N2 & N3 & N4 & N5 & N6 & N7).
  exists fonts, images, templates, imported, states, shadings, layers, spaces. split; [exact Eb|]. split; [exact Im|].
  split; [|split; [|split; [|split; [|split; [|split]]]]].
  - revert N1. apply naming_mono. intros k a. now apply font_at_mono.
  - revert N2. apply naming_mono. intros k a. now apply image_at_mono.
  - revert N3. apply naming_mono. intros k a. now apply template_at_mono.
  - revert N4. apply naming_mono. intros k a. now apply blend_at_mono.
  - revert N5. apply naming_mono. intros k a. now apply gradient_at_mono.
  - revert N6. apply naming_mono. intros k a. now apply layer_at_mono.
  - revert N7. apply naming_mono. intros k a. now apply spot_at_mono.
Qed.

(** an object followed by line ends *)
Lemma lookup_ws {E : env} (d : doc (e_num E)) pre fin os ps oa : assembled d pre fin os ps oa -> zlen (w_buf fin) < 10 ^ 10 -> forall k body ws,
  In (k, body +++ bs "endobj" +++ nl +++ ws) os -> object_in (w_buf fin) k body /\ 1 <= k <= w_n fin.
Proof.
  intros A Sz k body ws Hin. destruct (tables d _ _ _ _ _ A Sz) as (x & offs & enc & rest & Sx & _ & Hl & R & _ & _ & _ & Hoff & _).
  destruct (Hoff _ _ Hin) as (off & Hn & Hf).
  assert (Hk : 1 <= k <= w_n fin) by (apply (num_range d _ _ _ _ _ A); apply (in_map fst) in Hin; exact Hin). split; [|exact Hk].
  exists x, (Free 0 65535 :: map (fun o => InUse o 0) offs), rest, off. split; [exact Sx|]. split; [exact R|]. split; [lia|]. split.
  - replace (Z.to_nat k) with (S (Z.to_nat (k - 1))) by lia. cbn [nth_error]. exact (map_nth_error (fun o => InUse o 0) _ _ Hn).
  - destruct Hf as (H0 & r & Ef). split; [exact H0|]. exists (ws +++ r). rewrite Ef. unfold objtext, object_text. cbn [fst snd]. change eol with nl. rewrite <- !app_assoc. reflexivity.
Qed.

Lemma count_small {E : env} (d : doc (e_num E)) pre fin os ps oa : assembled d pre fin os ps oa -> w_n fin <= zlen (w_buf fin).
Proof.
  intros A. destruct (as_buf _ _ _ _ _ _ A) as (offs & enc & Hl & Hb & _). pose proof (as_n _ _ _ _ _ _ A).
  assert (L : zlen os = w_n fin).
  { pose proof (Permutation_length (as_nums _ _ _ _ _ _ A)) as X. rewrite map_length in X. unfold zlen. rewrite X.
    assert (Y : forall n j, length (nums j n) = n) by (induction n as [|n IH]; intros j; cbn; [reflexivity|now rewrite IH]). rewrite Y. lia. }
  assert (R : forall l, zlen l <= zlen (render l)).
  { induction l as [|o l IH]; [cbn; lia|]. unfold render. cbn [map List.concat]. fold (render l). rewrite zlen_cons, zlen_app. unfold objtext. rewrite !zlen_app.
    change (zlen (bs " 0 obj")) with 6. pose proof (zlen_nonneg (dec (fst o))). pose proof (zlen_nonneg (snd o)). pose proof (zlen_nonneg nl). lia. }
  rewrite Hb, !zlen_app. specialize (R os). pose proof (zlen_nonneg pre). match goal with |- _ <= _ + _ + zlen ?x => pose proof (zlen_nonneg x) end. lia.
Qed.

Lemma resources_and_imports :
  forall (E : env) (d : doc (e_num E)) (pre : bytes),
    well_formed d -> finished d pre -> zlength (file_of d pre) < 10 ^ 10 ->
    exists body K, object_in (file_of d pre) 2 body /\
      (resources_sound d -> resource_dictionary d (object_in (file_of d pre)) (stored d) K body) /\
      (imports_sound d -> (forall e, In e (d_impobjs d) -> imported_at (object_in (file_of d pre)) K e) /\
        forall h h', In h (map fst (d_impobjs d)) -> In h' (map fst (d_impobjs d)) -> K h = K h' -> h = h').
Proof.
  intros E d pre W F Sz. destruct (enddoc_assembled d pre (well_formed_inputs d W) F) as (os & ps & oa & A).
  destruct (as_exact _ _ _ _ _ _ A) as (w & o1 & u & t & H2 & Hl & Hc & Hok & Ha & Hi & Ht & Hw & Hin).
  eexists. exists (fun h => num_of (w_tab u) (SImp h)). split; [exact (lookup d _ _ _ _ _ A Sz _ _ Hin)|]. split.
  - intros RS. eapply (resource_dictionary_mono d (Oin o1) _ (cipher d)).
    + intros k x Hx. apply (lookup d _ _ _ _ _ A Sz). now apply Hi.
    + apply cipher_stored.
    + apply (resource_dict_text d (wf_order _ W) u); [|exact Hw]. rewrite Ht.
      refine (proj1 (all_stages d (wf_order _ W) RS (wf_ptr _ W) _ w o1 _ _ _ _ _)); auto. apply (in_imp _ (well_formed_inputs d W)).
  - intros IS. pose proof (well_formed_inputs d W) as I. unfold before_dict in Hok, Ha, Ht.
    assert (Hb2 := put_imported_ok d _ Hok). assert (Hb3 := put_tpls_ok d _ Hb2). assert (Hb4 : ok (put_res_objects d w)) by (eapply put_image_list_ok; exact Hb3).
    destruct (put_res_objects_adds d w Hc Hb4) as (p1 & A1 & _). pose proof (ad_cip _ _ _ A1 Hc) as C1.
    assert (N1 : 2 <= w_n (put_res_objects d w)). { rewrite (ad_n _ _ _ A1). pose proof (zlen_nonneg p1). lia. }
    destruct (put_images_adds d (put_res_objects d w) (in_img _ I) C1 N1) as (p2 & A2 & _). pose proof (ad_cip _ _ _ A2 C1) as C2.
    destruct (put_tpls_adds d (put_images d (put_res_objects d w)) (in_tpl _ I) (in_fmt _ I) (in_font _ I) C2) as (p3 & A3 & _). pose proof (ad_cip _ _ _ A3 C2) as C3.
    set (wt := put_tpls d (put_images d (put_res_objects d w))) in *.
    destruct (put_imported_exact d (wf_order _ W) wt (wf_imp _ W) (im_keys _ IS) C3 Hok) as (p4 & A4 & H4).
    assert (Eo : o1 = p1 +++ p2 +++ p3 +++ p4).
    { eapply adds_unique; [exact H2|exact Hl|exact Ha|]. do 3 (eapply adds_trans; [eassumption|]). exact A4. }
    cbv zeta in H4. set (objs := e_shuffle E 10 _ (d_impobjs d)) in *. set (off := w_n wt + 1) in *.
    assert (KI : forall e', In e' (d_impobjs d) -> num_of (w_tab u) (SImp (fst e')) = index_of (fst e') objs off).
    { intros e' He'. unfold num_of. rewrite Ht. now rewrite (proj1 (H4 e' He')). }
    assert (Obj : forall e', In e' (d_impobjs d) -> exists x, patch objs off (e_shuffle E 11 _ (snd (snd e'))) (fst (snd e')) = Some x /\ In (index_of (fst e') objs off, x +++ nl) os).
    { intros e' He'. destruct (H4 e' He') as (_ & x & Px & Ix). exists x. split; [exact Px|]. apply Hi. rewrite Eo. apply in_or_app. right. apply in_or_app. right. apply in_or_app. now right. }
    assert (Small : forall h, In h (map fst (d_impobjs d)) -> (length (dec (index_of h objs off)) <= 40)%nat).
    { intros h Hh. apply in_map_iff in Hh as (e' & <- & He'). destruct (Obj e' He') as (x & _ & Ix).
      assert (Hk : 1 <= index_of (fst e') objs off <= w_n _) by (apply (num_range d _ _ _ _ _ A); apply (in_map fst) in Ix; exact Ix).
      pose proof (count_small d _ _ _ _ _ A) as Cs. unfold dec. replace (_ <? 0) with false by lia. unfold dec_nat.
      eapply Nat.le_trans; [apply (dec_fuel_len 9); [lia|]|lia]. change (10 ^ Z.of_nat 10) with (10 ^ 10). unfold file_of in Sz. unfold zlen in Cs. unfold zlength in Sz. lia. }
    split.
    2:{ assert (Pm : Permutation objs (d_impobjs d)) by apply (wf_order _ W).
      assert (Nd : NoDup (map fst objs)) by (eapply Permutation_NoDup; [apply Permutation_map, Permutation_sym, Pm|exact (im_keys _ IS)]).
      intros h h' Hh Hh' Ek. apply in_map_iff in Hh as (e & <- & He). apply in_map_iff in Hh' as (e' & <- & He'). rewrite (KI e He), (KI e' He') in Ek.
      apply (Permutation_in _ (Permutation_sym Pm)), In_nth_error in He as (i & Hi1). apply (Permutation_in _ (Permutation_sym Pm)), In_nth_error in He' as (i' & Hi2).
      rewrite (index_of_spec objs off i e Nd Hi1), (index_of_spec objs off i' e' Nd Hi2) in Ek. assert (i = i') by lia. subst i'. congruence. }
    intros e He. destruct (Obj e He) as (x & Px & Ix). destruct (wf_imp _ W e He) as (b0 & ws & Eb & Fw & Fp).
    assert (Pm : Permutation (e_shuffle E 11 _ (snd (snd e))) (snd (snd e))) by apply (wf_order _ W).
    pose proof Px as Px'. rewrite Eb in Px'. apply patch_tail in Px'; [|rewrite Forall_forall in *; intros y Hy; apply Fp; eapply Permutation_in; [exact Pm|exact Hy]].
    destruct Px' as (b & Ex). subst x.
    apply patch_spec in Px as (L & R & Kp).
    2:{ intros p q Hp Hq. apply (im_apart _ IS e); [exact He| |]; eapply Permutation_in; eauto. }
    2:{ intros pos h Hin'. apply (Permutation_in _ Pm) in Hin'. destruct (im_refs _ IS e pos h He Hin') as (Q1 & Q2). split; [exact Q1|now apply Small]. }
    rewrite Eb in L, Kp. assert (Lb : length b = length b0) by (rewrite !app_length in L; lia).
    exists b0, ws, b. split; [exact Eb|]. split; [exact Fw|]. split.
    + split; [exact Lb|]. rewrite Forall_forall in Fp. split.
      * intros pos h Hin'. destruct (im_refs _ IS e pos h He Hin') as (Q1 & Q2). pose proof (Fp _ Hin') as Q3. cbn [fst] in Q3. unfold zlen in Q3.
        pose proof (R pos h (Permutation_in _ (Permutation_sym Pm) Hin')) as Q. apply in_map_iff in Q2 as (e' & <- & He'). rewrite (KI e' He').
        rewrite skipn_app, firstn_app, skipn_length in Q. replace (40 - (length b - Z.to_nat pos))%nat with O in Q by lia. cbn [firstn] in Q. now rewrite app_nil_r in Q.
      * intros i Hi'. destruct (Nat.lt_ge_cases i (length b)) as [Hlt|Hge].
        -- specialize (Kp i ltac:(intros pos h Hin'; apply (Hi' pos h); eapply Permutation_in; [exact Pm|exact Hin'])). rewrite !nth_error_app1 in Kp by lia. exact Kp.
        -- rewrite !(proj2 (nth_error_None _ _)) by lia. reflexivity.
    + rewrite (KI e He). apply (lookup_ws d _ _ _ _ _ A Sz _ _ ws). rewrite <- ?app_assoc in Ix. rewrite (lf_comm ws Fw) in Ix. exact Ix.
Qed.

(** Partial: under [resources_sound]. *)
Theorem C62_resource_names_partial :
  forall (E : env) (d : doc (e_num E)) (pre : bytes),
    well_formed d -> finished d pre -> resources_sound d -> zlength (file_of d pre) < 10 ^ 10 ->
    exists body K, object_in (file_of d pre) 2 body /\ resource_dictionary d (object_in (file_of d pre)) (stored d) K body /\
      (imports_sound d -> forall e, In e (d_impobjs d) -> imported_at (object_in (file_of d pre)) K e).
Proof.
  intros E d pre W F RS Sz. destruct (resources_and_imports E d pre W F Sz) as (body & K & H1 & H2 & H3).
  exists body, K. split; [exact H1|]. split; [now apply H2|]. intros IS. apply (H3 IS).
Qed.
Print Assumptions C62_resource_names_partial.

(** ** Concrete documents *)
Definition with_res (compress : bool) (layers : list layer) (blends : list blend) (grads : list (gradient Z)) (spots : list (bytes * spot)) (diffs : list bytes)
    (files : list (bytes * fontfile)) (fonts : list (bytes * font)) (images : list (bytes * image)) (tpls : list (bytes * tpl Z)) : doc Z :=
  let d := doc0 [page0 (bs "first") []] 1 [] [] [] [] None in {|
  d_pages := d_pages d; d_page := d_page d; d_k := d_k d; d_h := d_h d; d_defw := d_defw d; d_defh := d_defh d; d_links := d_links d;
  d_alias := d_alias d; d_aliasnb := d_aliasnb d; d_atts := d_atts d; d_docatts := d_docatts d; d_version := d_version d; d_blendmap := d_blendmap d;
  d_compress := compress; d_sort := d_sort d; d_gsort := d_gsort d; d_protect := d_protect d; d_layers := layers; d_pane := d_pane d;
  d_blends := blends; d_grads := grads; d_spots := spots; d_diffs := diffs; d_files := files; d_fonts := fonts;
  d_images := images; d_tpls := tpls;
  d_impobjs := d_impobjs d; d_imptpls := d_imptpls d; d_js := d_js d; d_xmp := d_xmp d; d_outlines := d_outlines d;
  d_producer := d_producer d; d_title := d_title d; d_subject := d_subject d; d_author := d_author d; d_keywords := d_keywords d; d_creator := d_creator d;
  d_created := d_created d; d_modified := d_modified d; d_zoom := d_zoom d; d_layout := d_layout d; d_pagesizes := d_pagesizes d |}.
Definition fd0 : fdesc := {| fd_ascent := 1; fd_descent := 2; fd_capheight := 3; fd_flags := 32; fd_xmin := 0; fd_ymin := 0; fd_xmax := 9; fd_ymax := 9; fd_italic := 0; fd_stemv := 70; fd_missing := 600 |}.
Definition font0 (t : ftype) (id : string) (diffn : Z) (file : bytes) : font := {|
  fo_id := bs id; fo_name := bs "Name"; fo_type := t; fo_diffn := diffn; fo_cw := repeat 500 256; fo_desc := fd0; fo_file := file;
  fo_utf8 := bs "ttf"; fo_wtext := bs "/W [1[500]]"; fo_gids := [] |}.
Definition image0 (ptr : Z) (id : string) (cs : string) (smask : option bytes) (data pal : string) : image := {|
  im_ptr := ptr; im_id := bs id; im_w := 2; im_h := 3; im_cs := bs cs; im_bpc := 8; im_filter := bs "FlateDecode"; im_dp := []; im_trns := []; im_smask := smask;
  im_data := bs data; im_pal := bs pal |}.
Definition im_a := image0 1 "a" "DeviceRGB" (Some (bs "mask")) "data" "".
Definition im_b := image0 2 "b" "Indexed" None "bits" "abcdef".
Definition ti : tpl Z := Tpl 11 (bs "t1") 0 0 false 10 10 (bs "inner") [(bs "i", im_a)] [].
Definition tu : tpl Z := Tpl 12 (bs "t2") 1 2 true 10 10 (bs "outer") [] [ti].
Definition doc_res : doc Z := with_res false [{| la_name := bs "layer"; la_visible := true |}] [{| bl_fill := bs "0.5"; bl_stroke := bs "0.5"; bl_mode := bs "Normal" |}]
  [{| gr_tp := 2; gr_c1 := bs "0 0 0"; gr_c2 := bs "1 1 1"; gr_x1 := 0; gr_y1 := 0; gr_x2 := 1; gr_y2 := 1; gr_r := 0 |}]
  [(bs "my ink", {| sp_id := 1; sp_c := 10; sp_m := 20; sp_y := 30; sp_k := 40 |})] [bs "32 /space"]
  [(bs "f.z", {| ff_utf8 := false; ff_content := Some (bs "program"); ff_len1 := 3; ff_len2 := 4 |})]
  [(bs "helvetica", font0 FCore "1" 0 []); (bs "times", font0 FType1 "2" 1 (bs "f.z"))]
  [(bs "p", im_a); (bs "q", im_b)] [(bs "t1", ti); (bs "t2", tu)].
Lemma within_tu t : within t tu -> t = tu \/ t = ti.
Proof.
  intros H. inversion H as [|? u ? Hu Hw]; subst; [now left|]. destruct Hu as [<-|[]]. right.
  inversion Hw as [|? ? ? Hu' _]; subst; [reflexivity|destruct Hu'].
Qed.
Lemma within_ti t : within t ti -> t = ti.
Proof. intros H. inversion H as [|? u ? Hu Hw]; subst; [reflexivity|]. destruct Hu. Qed.

Ltac by_cases := repeat (match goal with H : _ \/ _ |- _ => destruct H end).
(** the conditions of the theorem are met by a document with two fonts, an image with a soft mask, an image with a palette, nested
    templates, a layer, a transparency state, a gradient and a spot color; its dictionary *)
Example C62_ex : well_formed (E := env0) doc_res /\ finished (E := env0) doc_res [] /\ resources_sound (E := env0) doc_res /\
  zlength (file_of (E := env0) doc_res []) < 10 ^ 10 /\
  rest_of (file_of (E := env0) doc_res []) 2 [] =
  bs "<<" +++ eol +++ bs "/ProcSet [/PDF /Text /ImageB /ImageC /ImageI]" +++ eol +++ bs "/Font <<" +++ eol +++ bs "/F1 12 0 R" +++ eol +++ bs "/F2 13 0 R" +++ eol +++ bs ">>" +++ eol +++
  bs "/XObject <<" +++ eol +++ bs "/Ia 16 0 R" +++ eol +++ bs "/Ib 18 0 R" +++ eol +++ bs "/TPLt1 20 0 R" +++ eol +++ bs "/TPLt2 21 0 R" +++ eol +++ bs ">>" +++ eol +++
  bs "/ExtGState <<" +++ eol +++ bs "/GS1 6 0 R" +++ eol +++ bs ">>" +++ eol +++ bs "/Shading <<" +++ eol +++ bs "/Sh1 8 0 R" +++ eol +++ bs ">>" +++ eol +++
  bs "/Properties <<" +++ eol +++ bs "/OC0 5 0 R" +++ eol +++ bs ">>" +++ eol +++ bs "/ColorSpace <<" +++ eol +++ bs "/CS1 9 0 R" +++ eol +++ bs ">>" +++ eol +++ bs ">>" +++ eol.
Proof.
  assert (Wt : forall e (t : tpl (e_num env0)), In e (d_tpls doc_res) -> within t (snd e) -> t = tu \/ t = ti).
  { intros e t [<-|[<-|[]]] H; [right; now apply within_ti|now apply within_tu]. }
  split; [|split; [split; vm_compute; reflexivity|split; [|split; [vm_compute; reflexivity|vm_compute; reflexivity]]]].
  - constructor.
    + reflexivity.
    + apply env0_fmt.
    + intros e [<-|[<-|[]]]; (split; [|split]); try (apply plain_digits; repeat constructor; discriminate).
      all: split; [discriminate|]; intros a b H; apply (f_equal (containsb (bs "/L"))) in H; exfalso; revert H.
      all: try (assert (X : containsb (bs "/L") (a +++ bs "/L" +++ b) = true) by (apply occurs_containsb; exists a, b; reflexivity); rewrite X; vm_compute; discriminate).
    + intros e [<-|[<-|[]]]; apply plain_digits; repeat constructor; discriminate.
    + intros e t He Hw. destruct (Wt e t He Hw) as [-> | ->]; (split; [apply plain_digits; repeat constructor; discriminate|]).
      * intros i [].
      * intros i [<-|[]]. apply plain_digits; repeat constructor; discriminate.
    + intros e1 e2 a b H1 H2 Ha Hb. destruct (Wt _ _ H1 Ha) as [-> | ->], (Wt _ _ H2 Hb) as [-> | ->]; try reflexivity; intros X; discriminate X.
    + intros e [].
  - constructor.
    + repeat constructor; cbn; intuition discriminate.
    + repeat constructor; cbn; intuition discriminate.
    + repeat constructor; cbn; intuition discriminate.
    + intros e [<-|[<-|[]]]; cbn [snd font0 fo_type]; intros [H|H]; try discriminate. split; [cbn; lia|]. eexists. split; [left; reflexivity|]. now split.
    + intros e [<-|[]]. reflexivity.
    + intros g [<-|[]]. now left.
    + intros e [<-|[<-|[]]]; split; cbn; try discriminate; intros H; try discriminate H; reflexivity.
    + intros e e' [<-|[<-|[]]] [<-|[<-|[]]] H; try reflexivity; discriminate H.
    + intros e e' [<-|[<-|[]]] [<-|[<-|[]]] H; try reflexivity; discriminate H.
    + intros e1 e2 a b H1 H2 Ha Hb. destruct (Wt _ _ H1 Ha) as [-> | ->], (Wt _ _ H2 Hb) as [-> | ->]; try reflexivity; intros X; discriminate X.
    + intros e t i He Hw. destruct (Wt _ _ He Hw) as [-> | ->]; [intros []|]. intros [<-|[]]. exists (bs "p", im_a). split; [now left|reflexivity].
Qed.

(** *** a Type1 file that is not compressed: neither segment is embedded completely.  The second argument of the Go slice is taken for a
    length, but it is the end *)
Definition seg1 := bs "8 bytes.".
Definition seg2 := bs "the 24 encrypted bytes..".
Definition pfb : bytes := bs "header" +++ seg1 +++ bs "HEADER" +++ seg2.
Definition raw0 : fontfile := {| ff_utf8 := false; ff_content := Some pfb; ff_len1 := 8; ff_len2 := 24 |}.
Definition doc_raw : doc Z := with_res false [] [] [] [] [] [(bs "f.pfb", raw0)] [(bs "times", font0 FType1 "1" 0 (bs "f.pfb"))] [] [].
Lemma with_res_wf layers blends grads spots diffs files fonts : (forall e, In e fonts -> plain (fo_id (snd e))) ->
  well_formed (E := env0) (with_res false layers blends grads spots diffs files fonts [] []).
Proof. intros H. constructor; try (intros; contradiction); [reflexivity|apply env0_fmt|exact H]. Qed.
Theorem C62_raw_type1_refuted :
  well_formed (E := env0) doc_raw /\ finished (E := env0) doc_raw [] /\
  font_program (bs "f.pfb") raw0 pfb (seg1 +++ seg2) /\
  exists k kd data p q, object_in (file_of (E := env0) doc_raw []) kd (bs "<</Type /FontDescriptor" +++ p +++ bs "/FontFile " +++ ref k +++ q) /\
    stream_in (file_of (E := env0) doc_raw []) k data /\ data = bs "8 " +++ bs "the " /\ ~ font_program (bs "f.pfb") raw0 pfb data.
Proof.
  set (f := file_of (E := env0) doc_raw []). assert (Ef : f = file_of (E := env0) doc_raw []) by reflexivity. clearbody f.
  split; [apply with_res_wf; intros e [<-|[]]; apply plain_digits; repeat constructor; discriminate|].
  split; [split; vm_compute; reflexivity|].
  split. { exists (bs "header"), seg1, (bs "HEADER"), seg2, []. rewrite app_nil_r. repeat (split; [reflexivity|]). reflexivity. }
  exists 5, 8, (bs "8 " +++ bs "the "). eexists (until (bs "/FontFile") (rest_of f 8 (bs "<</Type /FontDescriptor"))), (bs ">>" +++ eol). split; [|split; [|split; [reflexivity|]]].
  - apply (check_object_in _ (find_xref f 0)). rewrite Ef. vm_compute. reflexivity.
  - eexists. split; [apply (check_object_in _ (find_xref f 0) _ (rest_of f 5 [])); rewrite Ef; vm_compute; reflexivity|].
    exists (until (bs "stream") (rest_of f 5 [])). rewrite Ef. split; vm_compute; reflexivity.
  - intros (h1 & a & h2 & b & t & _ & _ & Ha & _ & Hb & Hd). apply (f_equal (@length Z)) in Hd. rewrite !app_length in Hd. change (zlength a = 8) in Ha. change (zlength b = 24) in Hb. change (length (bs "8 ")) with 2%nat in Hd. change (length (bs "the ")) with 4%nat in Hd. unfold zlength in *. lia.
Qed.
Print Assumptions C62_raw_type1_refuted.

(** *** a font whose program is not embedded: its descriptor refers to object 0, which no file has *)
Definition doc_ne : doc Z := with_res false [] [] [] [] [] [] [(bs "times", font0 FType1 "1" 0 [])] [] [].
Theorem C62_not_embedded_refuted :
  well_formed (E := env0) doc_ne /\ finished (E := env0) doc_ne [] /\
  (exists kd p q, object_in (file_of (E := env0) doc_ne []) kd (bs "<</Type /FontDescriptor" +++ p +++ bs "/FontFile " +++ ref 0 +++ q)) /\
  forall b, ~ object_in (file_of (E := env0) doc_ne []) 0 b.
Proof.
  split; [apply with_res_wf; intros e [<-|[]]; apply plain_digits; repeat constructor; discriminate|].
  split; [split; vm_compute; reflexivity|]. split.
  - set (f := file_of (E := env0) doc_ne []). assert (Ef : f = file_of (E := env0) doc_ne []) by reflexivity. clearbody f.
    exists 7. eexists (until (bs "/FontFile") (rest_of f 7 (bs "<</Type /FontDescriptor"))), (bs ">>" +++ eol).
    apply (check_object_in _ (find_xref f 0)). rewrite Ef. vm_compute. reflexivity.
  - intros b (x & en & r & off & _ & _ & H & _). lia.
Qed.
Print Assumptions C62_not_embedded_refuted.
