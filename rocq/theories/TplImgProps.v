(** C51, continued: images of templates. *)
From Coq Require Import String Permutation.
From Verif Require Import Base Crypto DocModel DocSpec DocSort DocProofs DocBack DocProps DocProps2 TplModel TplProps.
Local Open Scope list_scope.
Open Scope Z_scope.
Notation length := List.length.

Section Img.
  Variables (num data : Type) (sha1hex : bytes -> bytes).
  Notation img := (img data).
  Lemma put_other {A} k (v : A) m e : fst e <> k -> In e m -> In e (put k v m).
  Proof.
    induction m as [|[x w] m IH]; cbn; [intros _ []|]. intros N [<-|H]; destruct (beqb k x) eqn:E; cbn; auto. apply beqb_eq in E. now subst.
  Qed.
  Lemma put_new {A} k (v : A) m : In (k, v) (put k v m).
  Proof. induction m as [|[x w] m IH]; cbn; [now left|]. destruct (beqb k x) eqn:E; cbn; [now left|now right]. Qed.
  Lemma tname_inj i a b : tname i a = tname i b -> a = b.
  Proof. unfold tname. intros H. apply app_inv_head, app_inv_head, app_inv_head in H. exact H. Qed.
  Definition has (h : bytes) (m : list (bytes * img)) : bool := existsb (fun x => beqb (ig_i (snd x)) h) m.
  Lemma has_in h m : has h m = true <-> exists n im, In (n, im) m /\ ig_i im = h.
  Proof. unfold has. rewrite existsb_exists. split; [intros ([n im] & I & E); apply beqb_eq in E; eauto|intros (n & im & I & <-); exists (n, im); split; [exact I|apply beqb_refl]]. Qed.
  Lemma add_images id old : forall l m,
    NoDup (map fst l) -> (forall n im x, In (n, im) l -> In (tname id n, x) old -> ig_i x = ig_i im) ->
    let m' := fold_left (fun m e => if has (ig_i (snd e)) old then m else put (tname id (fst e)) (snd e) m) l m in
    (forall e, In e m -> (In e old \/ forall n im, In (n, im) l -> fst e <> tname id n) -> In e m') /\
    (forall n im, In (n, im) l -> has (ig_i im) old = false -> In (tname id n, im) m').
  Proof.
    induction l as [|[n im] l IH]; intros m Nd Cl m'; [split; [now intros|intros n im []]|]. inversion Nd as [|? ? Ni Nd']; subst. cbn [fold_left fst snd] in m'.
    destruct (IH (if has (ig_i im) old then m else put (tname id n) im m) Nd') as [A B]; [intros a b x I; apply Cl; now right|]. fold m' in A, B. split.
    - intros e I O. apply A.
      + destruct (has (ig_i im) old) eqn:Eh; [exact I|]. apply put_other; [|exact I]. destruct O as [O|O]; [|apply (O n im); now left].
        intros E. destruct e as [ek ei]. cbn in E. subst ek. pose proof (Cl n im ei (or_introl eq_refl) O) as Q. assert (has (ig_i im) old = true) by (apply has_in; eauto). congruence.
      + destruct O as [O|O]; [now left|right]. intros a b Ib. apply (O a b). now right.
    - intros a b [[= <- <-]|I] Hh; [|now apply B]. rewrite Hh in *. apply A; [apply put_new|]. right. intros a b Ib E. cbn in E. apply tname_inj in E. subst a. apply Ni. apply (in_map fst) in Ib. exact Ib.
  Qed.
End Img.
(** Every image of a template that is used is in the document afterwards: itself, or
    another one with the same identifier.  The names under which a template adds its
    images must not be taken by other images. *)
Theorem C51_images_partial : forall (num data : Type) (sha1hex : bytes -> bytes) shuffle (t : tmpl num data) place c c' i,
  (forall l, Permutation (shuffle l) l) -> use sha1hex shuffle t place c = Ret c' -> t_id sha1hex t = Ret i -> 1 <= c_page c ->
  NoDup (map fst (t_images t)) ->
  (forall n im x, In (n, im) (t_images t) -> In (tname i n, x) (c_imgs c) -> ig_i x = ig_i im) ->
  (forall e, In e (c_imgs c) -> In e (c_imgs c')) /\
  forall n im, In (n, im) (t_images t) -> In (tname i n, im) (c_imgs c') \/ exists n' im', In (n', im') (c_imgs c) /\ ig_i im' = ig_i im.
Proof.
  intros num data sha1hex shuffle t place c c' i Sh H Hi Hp Nd Cl. unfold use in H. destruct (c_page c <=? 0) eqn:E0; [lia|]. rewrite Hi in H. cbn [obind] in H.
  match type of H with obind ?m _ = _ => destruct m as [tp| |]; try discriminate H end. cbn [obind] in H. destruct (emit_same _ _ _ _ _ H) as (_ & Ei & _). cbn [c_imgs] in Ei.
  destruct (add_images data i (c_imgs c) (shuffle (t_images t)) (c_imgs c)) as [A B].
  - apply (Permutation_NoDup (l := map fst (t_images t))); [apply Permutation_map, Permutation_sym, Sh|exact Nd].
  - intros n im x I. apply Cl. exact (Permutation_in _ (Sh _) I).
  - unfold has in A, B. cbv beta in A, B. rewrite Ei. split; [intros e I; apply A; [exact I|now left]|].
    intros n im I. destruct (has data (ig_i im) (c_imgs c)) eqn:Eh; [right; now apply has_in|]. left. apply B; [exact (Permutation_in _ (Permutation_sym (Sh _)) I)|exact Eh].
Qed.
Print Assumptions C51_images_partial.

(** When the document already has the image of a template under another pointer (both
    registered the same file), the template's image is not added, and the template
    refers to object 0 instead of the image. *)
Definition pic (ptr : Z) : image := {| im_ptr := ptr; im_id := bs "a1"; im_w := 1; im_h := 1; im_cs := bs "DeviceGray"; im_bpc := 8;
  im_filter := []; im_dp := []; im_trns := []; im_smask := None; im_data := [0]; im_pal := [] |}.
Definition tpic : tpl Z := Tpl 11 (bs "t1") 0 0 false 10 10 (bs "q 1 0 0 1 0 0 cm /Ia1 Do Q") [(bs "pic", pic 2)] [].
Definition doc_pic : doc Z :=
  let d := doc0 [page0 (bs "first") []] 1 [] [] [] [] None in {|
  d_pages := d_pages d; d_page := d_page d; d_k := d_k d; d_h := d_h d; d_defw := d_defw d; d_defh := d_defh d; d_links := d_links d;
  d_alias := d_alias d; d_aliasnb := d_aliasnb d; d_atts := d_atts d; d_docatts := d_docatts d; d_version := d_version d; d_blendmap := d_blendmap d;
  d_compress := d_compress d; d_sort := d_sort d; d_gsort := d_gsort d; d_protect := d_protect d; d_layers := d_layers d; d_pane := d_pane d;
  d_blends := d_blends d; d_grads := d_grads d; d_spots := d_spots d; d_diffs := d_diffs d; d_files := d_files d; d_fonts := d_fonts d;
  d_images := [(bs "pic", pic 1)]; d_tpls := [(bs "t1", tpic)];
  d_impobjs := d_impobjs d; d_imptpls := d_imptpls d; d_js := d_js d; d_xmp := d_xmp d; d_outlines := d_outlines d;
  d_producer := d_producer d; d_title := d_title d; d_subject := d_subject d; d_author := d_author d; d_keywords := d_keywords d; d_creator := d_creator d;
  d_created := d_created d; d_modified := d_modified d; d_zoom := d_zoom d; d_layout := d_layout d; d_pagesizes := d_pagesizes d |}.
Theorem C51_shared_image_refuted :
  (* the document has the picture, the template has its own copy of it, and using it adds nothing *)
  (forall (i : img Z) (t : tmpl Z Z) c c', t_images t = [(bs "pic", i)] -> c_imgs c = [(bs "pic", i)] -> 1 <= c_page c ->
     use (fun b => b) (fun l => l) t [] c = Ret c' -> c_imgs c' = c_imgs c) /\
  finished (E := env0) doc_pic [] /\
  exists k body before after, object_in (file_of (E := env0) doc_pic []) k body /\ body = before ++ bs "/XObject <<" ++ eol ++ bs "/Ia1 0 0 R" ++ eol ++ after /\
  exists r, after = bs ">>" ++ eol ++ bs ">>" ++ eol ++ bs "/Length 26 >>" ++ eol ++ bs "stream" ++ eol ++ bs "q 1 0 0 1 0 0 cm /Ia1 Do Q" ++ eol ++ r.
Proof.
  split.
  { intros i t c c' Ht Hc Hp H. unfold use in H. destruct (c_page c <=? 0) eqn:E0; [lia|]. destruct (t_id (fun b => b) t) as [id| |]; try discriminate H. cbn [obind] in H.
    match type of H with obind ?m _ = _ => destruct m as [tp| |]; try discriminate H end. cbn [obind] in H. destruct (emit_same _ _ _ _ _ H) as (_ & Ei & _). cbn [c_imgs] in Ei.
    rewrite Ei, Ht, Hc. cbn [fold_left existsb snd]. now rewrite beqb_refl. }
  split; [split; vm_compute; reflexivity|].
  set (f := file_of (E := env0) doc_pic []). exists 6, (rest_of f 6 []), (until (bs "/XObject <<") (rest_of f 6 [])), (after (bs "/Ia1 0 0 R" ++ eol) (rest_of f 6 [])).
  split; [apply (check_object_in f (find_xref f 0)); vm_compute; reflexivity|]. split; [vm_compute; reflexivity|]. eexists. vm_compute. reflexivity.
Qed.
Print Assumptions C51_shared_image_refuted.

(** a template with two pages that uses another template, and a document that uses it *)
Example C51_case : exists (t u : tmpl Z Z) (c : tdoc Z Z), made Z Z (fun b => b) (fun l => l) t /\ In u (t_subs t) /\ num_pages t = 2 /\ t_bytes t = Ret (bs "b2" ++ bs "two") /\
  run (num := Z) (data := Z) (fun b => b) (fun l => l) [AddPage [] (bs "start")] (tpl_start Z []) = Ret c /\ c_page c = 1 /\ t_images t <> [].
Proof.
  set (u0 := new_tpl (num := Z) (data := Z) (fun b => b) (fun l => l) (0, 0) (10, 10) [] (bs "b") [Draw (bs "one")]).
  destruct u0 as [u| |] eqn:Eu; [|vm_compute in Eu; discriminate Eu|vm_compute in Eu; discriminate Eu].
  set (l := [Use (Some u) (bs "cm"); AddImage (bs "x") {| ig_data := 0; ig_n := 0; ig_i := bs "h" |}; AddPage (bs "foot") (bs "b2"); Draw (bs "two")]).
  destruct (new_tpl (num := Z) (data := Z) (fun b => b) (fun l => l) (0, 0) (10, 10) [] (bs "b") l) as [t| |] eqn:Et.
  - exists t, u. eexists. split.
    + eapply made_new; [|exact Et]. intros v p I. destruct I as [I|[I|[I|[I|[]]]]]; try discriminate I. injection I as <- _. eapply made_new; [|exact Eu]. intros w q I'. destruct I' as [I'|[]]. discriminate I'.
    + vm_compute in Eu. injection Eu as <-. vm_compute in Et. injection Et as <-. split; [now left|]. split; [reflexivity|]. split; [reflexivity|]. split; [vm_compute; reflexivity|]. split; [reflexivity|discriminate].
  - exfalso. vm_compute in Eu. injection Eu as <-. vm_compute in Et. discriminate Et.
  - exfalso. vm_compute in Eu. injection Eu as <-. vm_compute in Et. discriminate Et.
Qed.
