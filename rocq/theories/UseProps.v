(** C55 and C83: the names contents use, and the names their resource dictionaries define. *)
From Coq Require Import String.
From Verif Require Import Base TextModel UseModel UseProofs.
Local Open Scope list_scope.
Open Scope Z_scope.
Notation length := List.length.

(** ** Specification *)
(** the operators of this content use the name *)
Definition uses (content : list item) (n : name) : Prop := In (Named n) content.
(** no image is registered under a name of the form t<id>-<name>, which UseTemplate makes up itself *)
Definition own_image_names (l : list cmd) : Prop :=
  forall d s i id nm, In (Do d (Image s i)) l -> s <> bs "t" ++ id ++ bs "-" ++ nm.
(** the dictionary of a template that document d writes has the name *)
Definition tpl_defines (tid : list item -> bytes) (m : fonts) (t : tm) (n : name) : Prop := exists o, In (n, o) (tpl_names tid m t).
Lemma plain_prog l : own_image_names l -> Forall plain_cmd l.
Proof.
  intros H. apply Forall_forall. intros c Hc. destruct c as [|d| |d a|d]; cbn; auto. destruct a; cbn; auto. intros (id' & nm & E). exact (H d s id id' nm Hc E).
Qed.

(** C55, all kinds of names: for every history of calls on any number of documents, their templates and the templates of
    these, with headers and footers in any place: every name in the content of a page of a document is in the resource
    dictionary of the document, except the empty font name (C55_no_font_refuted). *)
Theorem C55_all_names_partial : forall tid (l : list cmd) d m, own_image_names l ->
  In d (h_docs (run tid l empty)) -> d_own d = true -> nth_error (h_fonts (run tid l empty)) (d_fm d) = Some m ->
  forall page n, In page (k_pages (d_ct d)) -> uses page n -> n <> Fn [] -> In n (doc_names tid m (d_res d)).
Proof.
  intros tid l d m Hl Hd Ho Hm page n Hp Hu Hn.
  destruct (run_inv tid l empty (plain_prog l Hl) (empty_inv tid)) as [[HD _] _]. destruct (HD d Hd) as [(m0 & E & I) _].
  assert (m0 = m) by congruence. subst m0. pose proof (i_pages tid _ _ I page Hp) as F. rewrite Forall_forall in F. specialize (F _ Hu). cbn in F.
  unfold doc_names. rewrite !in_app_iff, !in_map_iff. destruct n as [id|id|id|i|i|i|i]; cbn in F.
  - left. destruct F as [->|F]; [contradiction|]. apply in_map_iff in F as (e & <- & He). now exists e.
  - right; left. destruct F as (s & p & H & _). apply get_in in H. now exists (s, (p, id)).
  - do 2 right; left. destruct F as (t & H). apply get_in in H. exists (id, t). split; [|exact H]. cbn. f_equal. symmetry. exact (ro_key tid _ (i_res tid _ _ I) _ _ H).
  - do 3 right; left. exists (Z.to_nat i). split; [f_equal; lia|]. apply in_seq. lia.
  - do 4 right; left. exists (Z.to_nat i). split; [f_equal; lia|]. apply in_seq. lia.
  - do 5 right; left. exists (Z.to_nat i). split; [f_equal; lia|]. apply in_seq. lia.
  - do 6 right. apply F in Ho. apply in_map_iff in Ho as (e & <- & He). now exists e.
Qed.
Print Assumptions C55_all_names_partial.

(** C83: for every history: every font (other than the empty name), image and template that the content of a page of a
    template names is in the template's own resource dictionary, as a document with the fonts of the template's document writes it, at any
    later time (l2).  Templates of documents and templates in templates are pages of these templates. *)
Theorem C83_names_partial : forall tid (l l2 : list cmd) t, own_image_names (l ++ l2) ->
  In t (h_tms (run tid l empty)) ->
  let h := run tid (l ++ l2) empty in
  In t (h_tms h) /\
  (forall d m, In d (h_docs h) -> d_fm d = tm_fm t -> nth_error (h_fonts h) (d_fm d) = Some m ->
     forall k n, uses (tm_content (on_page k t)) n ->
       match n with Fn id => id <> [] -> tpl_defines tid m (on_page k t) n | Im _ | Tp _ => tpl_defines tid m (on_page k t) n | _ => True end) /\
  (forall s, In s (tm_subs t) \/ (exists d, In d (h_docs h) /\ In s (map snd (r_tpls (d_res d)))) -> exists t0 k, In t0 (h_tms h) /\ s = on_page k t0).
Proof.
  intros tid l l2 t Hl Ht h.
  assert (Hl1 : own_image_names l) by (intros d s i id nm H; apply (Hl d s i); apply in_or_app; now left).
  assert (Hl2 : own_image_names l2) by (intros d s i id nm H; apply (Hl d s i); apply in_or_app; now right).
  destruct (run_inv tid l empty (plain_prog l Hl1) (empty_inv tid)) as [I1 _].
  assert (Eh : h = run tid l2 (run tid l empty)) by (unfold h, run; now rewrite fold_left_app).
  destruct (run_inv tid l2 _ (plain_prog l2 Hl2) I1) as [[HD HT] [_ Gt]]. rewrite <- Eh in HD, HT, Gt.
  assert (Ht' : In t (h_tms h)) by now apply Gt. split; [exact Ht'|]. destruct (HT t Ht') as [(m0 & Em & HP) HS]. split.
  - intros d m Hd Hf Hm k n Hu. assert (m0 = m) by congruence. subst m0.
    assert (Hu' : uses (nth k (tm_pages t) []) n) by (destruct t; exact Hu). unfold uses in Hu'.
    destruct (nth_in_or_default k (tm_pages t) []) as [Hp|Hp]; [|rewrite Hp in Hu'; destruct Hu'].
    specialize (HP _ Hp). rewrite Forall_forall in HP. specialize (HP _ Hu'). unfold tpl_defines, tpl_names.
    destruct t as [ps pg im su fm]. cbn [on_page tm_imgs tm_subs] in *. destruct n as [id|id|id| | | | ]; cbn in HP; auto.
    + intros N. destruct HP as [->|HP]; [contradiction|]. apply in_map_iff in HP as (e & <- & He). exists None. rewrite !in_app_iff. left. apply in_map_iff. now exists e.
    + destruct HP as ([s [p i]] & He & E). cbn in E. subst i. exists (Some p). rewrite !in_app_iff. right; left. apply in_map_iff. now exists (s, (p, id)).
    + destruct HP as (s & Hs & E). exists None. rewrite !in_app_iff. right; right. apply in_map_iff. exists s. split; [now rewrite E|exact Hs].
  - intros s [Hs|(d & Hd & Hs)]; [exact (HS s Hs)|]. apply in_map_iff in Hs as ([k s'] & <- & Hs). exact (proj2 (HD d Hd) k s' Hs).
Qed.
Print Assumptions C83_names_partial.

(** An image of a template becomes one of the document when the template is used for the first time there (no name of
    the form t<id>-... of the template yet), unless the document has another image with the same data. *)
Lemma add_imgs_cons id old e l m : add_imgs id old (e :: l) m = add_imgs id old l (if existsb (fun x => beqb (snd (snd x)) (snd (snd e))) old then m else put (tname id (fst e)) (snd e) m).
Proof. reflexivity. Qed.
Lemma add_imgs_spec id old : forall l m, NoDup (map fst l) -> (forall nm, ~ In (tname id nm) (map fst m)) ->
  forall e, In e l -> (forall x, In x old -> snd (snd x) <> snd (snd e)) -> get (tname id (fst e)) (add_imgs id old l m) = Some (snd e).
Proof.
  assert (Inj : forall a b, tname id a = tname id b -> a = b) by (intros a b H; unfold tname in H; now apply app_inv_head, app_inv_head, app_inv_head in H).
  assert (Keep : forall l m k, (forall e, In e l -> tname id (fst e) <> k) -> get k (add_imgs id old l m) = get k m).
  { induction l as [|e l IH]; intros m k H; [reflexivity|]. rewrite add_imgs_cons, IH by (intros e' He'; apply H; now right). destruct (existsb _ _); [reflexivity|].
    apply get_put_other. intros ->. exact (H e (or_introl eq_refl) eq_refl). }
  intros l m Nd Nm e He Hx. revert m Nm. induction l as [|x l IH]; intros m Nm; [destruct He|]. cbn in Nd. inversion Nd as [|? ? N1 N2]; subst. destruct He as [->|He].
  - change (get (tname id (fst e)) (add_imgs id old l (if existsb (fun x => beqb (snd (snd x)) (snd (snd e))) old then m else put (tname id (fst e)) (snd e) m)) = Some (snd e)).
    destruct (existsb _ old) eqn:Eb.
    { apply existsb_exists in Eb as (x & H1 & H2). apply beqb_eq in H2. now destruct (Hx x H1). }
    rewrite Keep; [apply get_put_same|]. intros e' He' E. apply Inj in E. apply N1. rewrite <- E. now apply in_map.
  - change (get (tname id (fst e)) (add_imgs id old l (if existsb (fun y => beqb (snd (snd y)) (snd (snd x))) old then m else put (tname id (fst x)) (snd x) m)) = Some (snd e)).
    assert (G : forall m1, get (tname id (fst e)) (add_imgs id old l m1) = Some (snd e)); [|apply G].
    clear IH Nm. revert He N2. clear N1 Nd. induction l as [|y l IHl]; intros He N2 m1; [destruct He|]. inversion N2; subst. destruct He as [->|He].
    + change (get (tname id (fst e)) (add_imgs id old l (if existsb (fun x => beqb (snd (snd x)) (snd (snd e))) old then m1 else put (tname id (fst e)) (snd e) m1)) = Some (snd e)).
      destruct (existsb _ old) eqn:Eb.
      { apply existsb_exists in Eb as (z & K1 & K2). apply beqb_eq in K2. now destruct (Hx z K1). }
      rewrite Keep; [apply get_put_same|]. intros e' He' E. apply Inj in E. apply H1. rewrite <- E. now apply in_map.
    + rewrite add_imgs_cons. now apply IHl.
Qed.
Lemma add_imgs_old id old : forall l m, (forall nm, ~ In (tname id nm) (map fst m)) -> forall k v, In (k, v) m -> In (k, v) (add_imgs id old l m).
Proof.
  assert (X : forall l m k v, (forall nm, k <> tname id nm) -> In (k, v) m -> In (k, v) (add_imgs id old l m)).
  { induction l as [|e l IH]; intros m k v Nk Hi; [exact Hi|]. rewrite add_imgs_cons. apply IH; [exact Nk|]. destruct (existsb _ _); [exact Hi|]. clear IH.
    induction m as [|[a b] m IHm]; [destruct Hi|]. cbn [put]. destruct (beqb (tname id (fst e)) a) eqn:E.
    - destruct Hi as [[= -> ->]|Hi]; [|right; exact Hi]. apply beqb_eq in E. symmetry in E. now destruct (Nk (fst e)).
    - destruct Hi as [Hi|Hi]; [left; exact Hi|right; now apply IHm]. }
  intros l m Nm k v Hi. apply X; [|exact Hi]. intros nm ->. apply (Nm nm). apply (in_map fst) in Hi. exact Hi.
Qed.
Theorem C83_images_partial : forall tid t d, k_page (d_ct d) <> O -> NoDup (map fst (tm_imgs t)) ->
  (forall nm, ~ In (bs "t" ++ tid (tm_content t) ++ bs "-" ++ nm) (map fst (r_imgs (d_res d)))) ->
  (forall e, In e (r_imgs (d_res d)) -> In e (r_imgs (d_res (use tid t d)))) /\
  forall n ptr id, In (n, (ptr, id)) (tm_imgs t) ->
    (exists n', In (n', (ptr, id)) (r_imgs (d_res (use tid t d)))) \/ exists n' other, In (n', (other, id)) (r_imgs (d_res d)) /\ other <> ptr.
Proof.
  intros tid t d Hp Nd Nm. assert (E0 : Nat.eqb (k_page (d_ct d)) 0 = false) by now apply Nat.eqb_neq.
  assert (E : r_imgs (d_res (use tid t d)) = add_imgs (tid (tm_content t)) (r_imgs (d_res d)) (tm_imgs t) (r_imgs (d_res d))).
  { rewrite (use_eq tid t d E0), (proj1 (emit_res _ _)). reflexivity. }
  rewrite E. split; [intros [k v]; now apply add_imgs_old|]. intros n ptr id Hi.
  destruct (existsb (fun x => beqb (snd (snd x)) id) (r_imgs (d_res d))) eqn:Ex.
  - apply existsb_exists in Ex as ([n' [p' i']] & H1 & H2). apply beqb_eq in H2. cbn in H2. subst i'. destruct (Nat.eq_dec p' ptr) as [->|N]; [|right; eauto].
    left. exists n'. now apply add_imgs_old.
  - left. exists (tname (tid (tm_content t)) n). apply (get_in (A := img)). apply (add_imgs_spec _ _ _ _ Nd Nm (n, (ptr, id)) Hi).
    intros [n' [p' i']] Hx. cbn. intros ->. assert (T : existsb (fun x => beqb (snd (snd x)) id) (r_imgs (d_res d)) = true).
    { apply existsb_exists. exists (n', (p', id)). split; [exact Hx|]. cbn. apply beqb_refl. } congruence.
Qed.
Print Assumptions C83_images_partial.

(** ** Concrete histories *)
(** an identifier for the examples: the length of the content *)
Definition tid0 (c : list item) : bytes := dec (Z.of_nat (length c)).
Definition page_calls (d : nat) : list cmd := [Do d Save; Do d Start; Do d Restore].
(** a document with a font and a logo; a template with the font, a font of its own, the logo and another image; another template that uses it; the document uses that *)
Definition good_prog : list cmd :=
  [New] ++ page_calls 0 ++ [Do 0 (SetFont (bs "times") (Some (bs "times", bs "f1"))); Do 0 (Image (bs "logo") (bs "h1"));
   Begin 0; Do 1 (SetFont (bs "courier") (Some (bs "courier", bs "f2"))); Do 1 (Print (bs "x")); Do 1 (Image (bs "logo") (bs "h1")); Do 1 (Image (bs "pic") (bs "h2")); Finish 1;
   Begin 0; Do 2 (UseTpl 0 1); Finish 2; Do 0 (UseTpl 1 1); Do 0 (SetAlpha (bs "0.5")); Do 0 Gradient; Do 0 AddLayer; Do 0 (BeginLayer 0); Do 0 (AddSpot (bs "ink")); Do 0 (SetFillSpot (bs "ink") (bs "1"))]
  ++ page_calls 0.
Definition names_in (c : list item) : list name := flat_map (fun i => match i with Named n => [n] | _ => [] end) c.
Example C83_ex : own_image_names good_prog /\
  let h := run tid0 good_prog empty in
  map (fun t => map names_in (tm_pages t)) (h_tms h) = [[[]; [Fn (bs "f1"); Fn (bs "f1"); Fn (bs "f2"); Im (bs "h1"); Im (bs "h2")]]; [[]; [Fn (bs "f1"); Fn (bs "f1"); Tp (bs "7")]]] /\
  map (fun d => map names_in (k_pages (d_ct d))) (firstn 1 (h_docs h)) =
    [[[]; [Fn (bs "f1"); Im (bs "h1"); Tp (bs "5"); Gs 1; Sh 1; Oc 0; Cs 1]; [Fn (bs "f1"); Cs 1; Fn (bs "f1")]]] /\
  map (fun d => (map snd (r_imgs (d_res d)), map fst (r_tpls (d_res d)))) (firstn 1 (h_docs h)) = [([(4%nat, bs "h1"); (8%nat, bs "h2")], [bs "5"; bs "7"])].
Proof.
  split; [|vm_compute; auto 10].
  intros d s i id nm H E. cbn in H. repeat (destruct H as [H|H]; [try discriminate H; injection H; intros; subst; discriminate|]). destruct H.
Qed.

Example C83_images_ex : exists d t, k_page (d_ct d) <> O /\ NoDup (map fst (tm_imgs t)) /\
  (forall nm, ~ In (bs "t" ++ tid0 (tm_content t) ++ bs "-" ++ nm) (map fst (r_imgs (d_res d)))) /\
  map snd (r_imgs (d_res d)) = [(1%nat, bs "h1")] /\ map snd (tm_imgs t) = [(1%nat, bs "h1"); (2%nat, bs "h2")] /\
  map snd (r_imgs (d_res (use tid0 t d))) = [(1%nat, bs "h1"); (2%nat, bs "h2")].
Proof.
  exists {| d_ct := {| k_pages := [[]; []]; k_page := 1 |}; d_res := {| r_imgs := [(bs "logo", (1%nat, bs "h1"))]; r_tpls := []; r_blends := []; r_grads := 0; r_layers := 0; r_spots := [] |};
       d_cols := cols0; d_key := []; d_cur := []; d_saved := []; d_layer := -1; d_err := false; d_ended := false; d_fm := 0; d_own := true |},
    (Tm [[]; [Named (Im (bs "h2"))]] 1 [(bs "logo", (1%nat, bs "h1")); (bs "pic", (2%nat, bs "h2"))] [] 0).
  split; [discriminate|]. split; [repeat constructor; cbn; intros [H|[]] + intros []; discriminate|]. split; [|vm_compute; auto].
  intros nm H. cbn in H. destruct H as [H|[]]. discriminate H.
Qed.

(** A template that sets a transparency, paints with a gradient, opens a layer or a spot color of its own: the name is
    not in its dictionary. *)
Definition lost (l : list act) : list (list name) * list (name * option nat) :=
  let h := run tid0 ([New] ++ page_calls 0 ++ [Begin 0] ++ map (Do 1) l ++ [Finish 1; Do 0 (UseTpl 0 1)]) empty in
  (map (fun t => names_in (tm_content t)) (h_tms h), flat_map (fun t => tpl_names tid0 (nth (tm_fm t) (h_fonts h) []) t) (h_tms h)).
Theorem C83_states_refuted :
  lost [SetAlpha (bs "0.5")] = ([[Gs 1]], []) /\ lost [Gradient] = ([[Sh 1]], []) /\ lost [AddLayer; BeginLayer 0] = ([[Oc 0]], []) /\
  lost [AddSpot (bs "ink"); SetFillSpot (bs "ink") (bs "1")] = ([[Cs 1]], []).
Proof. vm_compute. auto. Qed.
Print Assumptions C83_states_refuted.
(** A template drawn while a spot color is selected in the document: its content starts with that color, though the
    drawing function draws nothing, and neither the template nor the Fpdf inside it knows the color. *)
Theorem C83_inherited_refuted :
  let h := run tid0 ([New; Do 0 (AddSpot (bs "ink")); Do 0 (SetFillSpot (bs "ink") (bs "1"))] ++ page_calls 0 ++ [Begin 0; Finish 1]) empty in
  map (fun t => (names_in (tm_content t), tpl_names tid0 (nth (tm_fm t) (h_fonts h) []) t)) (h_tms h) = [([Cs 1], [])] /\
  map (fun d => r_spots (d_res d)) (h_docs h) = [[(bs "ink", 1)]; []].
Proof. vm_compute. auto. Qed.
Print Assumptions C83_inherited_refuted.
(** A template of CreateTpl with text: its font is not a font of the document that uses the template. *)
Theorem C83_free_font_refuted :
  let h := run tid0 ([BeginFree; Do 0 (SetFont (bs "times") (Some (bs "times", bs "f1"))); Finish 0; New] ++ page_calls 1 ++ [Do 1 (UseTpl 0 1)]) empty in
  map (fun t => names_in (tm_content t)) (h_tms h) = [[Fn (bs "f1")]] /\
  map (fun d => (nth (d_fm d) (h_fonts h) [], map fst (r_tpls (d_res d)))) (skipn 1 (h_docs h)) = [([], [bs "2"])] /\
  forall d, nth_error (h_docs h) 1 = Some d -> forall t, In t (map snd (r_tpls (d_res d))) -> ~ tpl_defines tid0 (nth (d_fm d) (h_fonts h) []) t (Fn (bs "f1")).
Proof.
  cbv zeta. split; [vm_compute; reflexivity|]. split; [vm_compute; reflexivity|].
  intros d Hd t Ht (o & Ho). vm_compute in Hd. injection Hd as <-. vm_compute in Ht. destruct Ht as [<-|[]]. vm_compute in Ho. exact Ho.
Qed.
Print Assumptions C83_free_font_refuted.
(** Two templates with the same logo: the document gets the image of the first template only, the one the second
    refers to is never written (its object number stays 0). *)
Theorem C83_images_refuted :
  let h := run tid0 ([New] ++ page_calls 0 ++ [Begin 0; Do 1 (Image (bs "logo") (bs "h")); Finish 1; Begin 0; Do 2 (Image (bs "logo") (bs "h")); Do 2 (Print (bs "x")); Finish 2; Do 0 (UseTpl 0 1); Do 0 (UseTpl 1 1)]) empty in
  map (fun t => tpl_names tid0 (nth (tm_fm t) (h_fonts h) []) t) (h_tms h) = [[(Im (bs "h"), Some 3%nat)]; [(Im (bs "h"), Some 4%nat)]] /\
  map (fun d => (map snd (r_imgs (d_res d)), map fst (r_tpls (d_res d)))) (firstn 1 (h_docs h)) = [([(3%nat, bs "h")], [bs "2"; bs "3"])].
Proof. vm_compute. auto. Qed.
Print Assumptions C83_images_refuted.
(** UseTemplate overwrites an image registered under a name it makes up: the page's name is lost. *)
Theorem C55_image_name_refuted :
  let h := run tid0 ([New; Do 0 (Image (bs "t2-x") (bs "h1"))] ++ page_calls 0 ++ [Do 0 (Image (bs "t2-x") (bs "h1")); BeginFree; Do 1 (Image (bs "x") (bs "h2")); Finish 1; Do 0 (UseTpl 0 1)]) empty in
  map (fun d => (map names_in (k_pages (d_ct d)), map (fun e => snd (snd e)) (r_imgs (d_res d)))) (firstn 1 (h_docs h)) = [([[]; [Im (bs "h1"); Tp (bs "2")]], [bs "h2"])].
Proof. vm_compute. reflexivity. Qed.
Print Assumptions C55_image_name_refuted.
