(** C79: templates survive being written and read back. *)
From Coq Require Import String Permutation.
From Verif Require Import Base Crypto DocModel DocSort DocProofs TplModel TplProps SerModel SerSpec.
Local Open Scope list_scope.
Open Scope Z_scope.
Notation length := List.length.

Section Proofs.
  Variables (num data : Type) (sha1hex : bytes -> bytes) (ihash : data -> Z -> bytes).
  Variable shuffle : list (bytes * img data) -> list (bytes * img data).
  Hypothesis shuffled : forall l, Permutation (shuffle l) l.
  Notation tmpl := (tmpl num data). Notation call := (call num data). Notation tdoc := (tdoc num data). Notation img := (img data).
  Variable N : bytes -> img.
  Hypothesis N_names : naming data N.
  Hypothesis N_reg : forall k, as_registered data ihash (N k).
  Notation built := (built num data sha1hex shuffle N).
  Notation id_of := (id_of (num := num) (data := data) sha1hex).
  Notation has_image := (has_image num data). Notation same := (same num data). Notation inside := (inside num data).
  Notation made := (made num data sha1hex shuffle). Notation allinv := (allinv num data sha1hex shuffle).

  Lemma built_made t : built t -> made t.
  Proof.
    induction 1 as [corner size imgs begin l t H1 H2 H3 IH H4|t k t' H1 IH H2 H3]; [econstructor 1; eauto|econstructor 2; eauto].
  Qed.

  (** ** The images of a template include those of the templates it uses *)
  Definition named (m : list (bytes * img)) : Prop := forall k v, In (k, v) m -> v = N k.
  Definition shows (m : list (bytes * img)) (i : bytes) : Prop := exists k v, In (k, v) m /\ ig_i v = i.
  Definition iinv (t : tmpl) : Prop := named (t_images t) /\ forall s, In s (t_subs t) -> forall i, has_image s i -> has_image t i.
  Definition dimg (c : tdoc) : Prop := named (c_imgs c) /\ forall k s, In (k, s) (c_tpls c) -> (built s /\ iinv s) /\ forall i, has_image s i -> shows (c_imgs c) i.
  Lemma put_named k (m : list (bytes * img)) v : v = N k -> named m -> named (put k v m).
  Proof. intros Hv H x w I. apply in_put in I as [[= -> ->]|I]; [exact Hv|now apply H]. Qed.
  Lemma put_has {A} k (v : A) m : In (k, v) (put k v m).
  Proof. induction m as [|[x w] m IH]; cbn; [now left|]. destruct (beqb k x); [now left|right; exact IH]. Qed.
  Lemma put_in_keys {A} k (v : A) m k' : In k' (map fst (put k v m)) <-> k' = k \/ In k' (map fst m).
  Proof.
    induction m as [|[x w] m IH]; cbn; [intuition|]. destruct (beqb k x) eqn:E; cbn; [apply beqb_eq in E; subst; intuition|]. rewrite IH. intuition.
  Qed.
  Lemma put_old {A} k (v : A) m x w : In (x, w) m -> In (x, w) (put k v m) \/ x = k.
  Proof.
    induction m as [|[y u] m IH]; cbn; [intros []|]. intros [[= -> ->]|I].
    - destruct (beqb k x) eqn:E; [right; apply beqb_eq in E; now symmetry|left; now left].
    - destruct (beqb k y) eqn:E; [left; right; exact I|]. destruct (IH I); [left; now right|now right].
  Qed.
  Lemma put_shows k m v i : v = N k -> named m -> shows m i -> shows (put k v m) i.
  Proof.
    intros Hv H (x & w & I & Hi). destruct (put_old k v m x w I) as [I'| ->]; [exists x, w; now split|].
    exists k, v. split; [apply put_has|]. rewrite Hv, <- (H k w I). exact Hi.
  Qed.
  (** the loop of UseTemplateScaled over the images *)
  Definition addimgs (ex : list (bytes * img)) (id : bytes) (l m : list (bytes * img)) : list (bytes * img) :=
    fold_left (fun m e => if existsb (fun x => beqb (ig_i (snd x)) (ig_i (snd e))) ex then m else put (tname id (fst e)) (snd e) m) l m.
  Lemma addimgs_spec ex id : forall l m, named l -> named m -> (forall i, shows ex i -> shows m i) ->
    named (addimgs ex id l m) /\ (forall i, shows m i -> shows (addimgs ex id l m) i) /\ (forall i, shows l i -> shows (addimgs ex id l m) i).
  Proof.
    induction l as [|[k v] l IH]; intros m Hl Hm Hx; [repeat split; [exact Hm|auto|intros i (x & w & [] & _)]|].
    assert (Hl' : named l) by (intros x w I; apply Hl; now right).
    assert (Hv : v = N (tname id k)) by (rewrite N_names; apply Hl; now left).
    unfold addimgs. cbn [fold_left fst snd]. destruct (existsb (fun x => beqb (ig_i (snd x)) (ig_i v)) ex) eqn:E.
    - destruct (IH m Hl' Hm Hx) as (A1 & A2 & A3). split; [exact A1|]. split; [exact A2|]. intros i (x & w & [[= -> ->]|I] & Hi); [|apply A3; exists x, w; now split].
      apply A2, Hx. apply existsb_exists in E as ((y & z) & I & E). apply beqb_eq in E. exists y, z. split; [exact I|]. cbn in E. congruence.
    - assert (Hm' : named (put (tname id k) v m)) by now apply put_named.
      destruct (IH _ Hl' Hm') as (A1 & A2 & A3); [intros i Hi; apply put_shows; auto|].
      split; [exact A1|]. split; [intros i Hi; apply A2; now apply put_shows|]. intros i (x & w & [[= -> ->]|I] & Hi); [|apply A3; exists x, w; now split].
      apply A2. exists (tname id x), w. split; [apply put_has|exact Hi].
  Qed.
  Lemma reg_in : forall subs (m0 m : list (bytes * tmpl)),
    fold_left (fun m s => obind m (fun m => obind (t_id sha1hex s) (fun i => Ret (put i s m)))) subs (Ret m0) = Ret m ->
    forall k s, In (k, s) m -> In (k, s) m0 \/ In s subs.
  Proof.
    assert (P0 : forall subs, fold_left (fun m s => obind m (fun m => obind (t_id sha1hex s) (fun i => Ret (put i s m)))) subs (Panic : outcome (list (bytes * tmpl))) = Panic)
      by (induction subs as [|u subs IH]; [reflexivity|exact IH]).
    assert (P1 : forall subs, fold_left (fun m s => obind m (fun m => obind (t_id sha1hex s) (fun i => Ret (put i s m)))) subs (OutOfFuel : outcome (list (bytes * tmpl))) = OutOfFuel)
      by (induction subs as [|u subs IH]; [reflexivity|exact IH]).
    induction subs as [|u subs IH]; intros m0 m H k s I; [injection H as ->; now left|]. cbn [fold_left obind] in H.
    destruct (t_id sha1hex u) as [i| |]; cbn [obind] in H; [|rewrite P0 in H; discriminate H|rewrite P1 in H; discriminate H].
    destruct (IH _ _ H k s I) as [J|J]; [|right; now right]. apply in_put in J as [[= -> ->]|J]; [right; now left|now left].
  Qed.
  Lemma use_imgs t place (c c' : tdoc) : built t -> iinv t -> (forall s, In s (t_subs t) -> built s /\ iinv s) -> dimg c -> use sha1hex shuffle t place c = Ret c' -> dimg c'.
  Proof.
    intros Tb (T1 & T2) Ts (D1 & D2) H. unfold use in H. destruct (c_page c <=? 0); [injection H as <-; now split|].
    destruct (t_id sha1hex t) as [i| |]; try discriminate H. cbn [obind] in H.
    match type of H with obind ?x _ = _ => destruct x as [m| |] eqn:E; try discriminate H end. cbn [obind] in H.
    apply emit_same in H as (H1 & H2 & _). cbn [c_tpls c_imgs] in H1, H2.
    change (c_imgs c' = addimgs (c_imgs c) i (shuffle (t_images t)) (c_imgs c)) in H2.
    assert (Sn : named (shuffle (t_images t))) by (intros k v I; apply T1; exact (Permutation_in _ (shuffled _) I)).
    destruct (addimgs_spec (c_imgs c) i (shuffle (t_images t)) (c_imgs c) Sn D1) as (A1 & A2 & A3); [auto|].
    split; [now rewrite H2|]. intros k s I. rewrite H1 in I. rewrite H2.
    assert (At : forall j, has_image t j -> shows (addimgs (c_imgs c) i (shuffle (t_images t)) (c_imgs c)) j).
    { intros j (x & w & Iw & Hj). apply A3. exists x, w. split; [exact (Permutation_in _ (Permutation_sym (shuffled _)) Iw)|exact Hj]. }
    destruct (reg_in _ _ _ E k s I) as [J|J].
    - apply in_put in J as [[= -> ->]|J]; [split; [split; [exact Tb|now split]|exact At]|]. destruct (D2 k s J) as (B1 & B2). split; [exact B1|]. intros j Hj. apply A2, B2, Hj.
    - split; [now apply Ts|]. intros j Hj. apply At. now apply (T2 s J).
  Qed.
  Definition alli (t : tmpl) : Prop := iinv t /\ forall s, In s (t_subs t) -> built s /\ iinv s.
  Lemma step_imgs x (c c' : tdoc) : (forall u place, x = Use (Some u) place -> built u /\ alli u) -> (forall k v, x = @AddImage num data k v -> v = N k) ->
    dimg c -> step sha1hex shuffle x c = Ret c' -> dimg c'.
  Proof.
    intros Hu Hi D H. destruct x as [footer b|n|b|name im|[t|] place]; cbn [step] in H.
    - destruct (c_err c); [injection H as <-; exact D|].
      match type of H with obind (emit footer ?c0) _ = _ => destruct (emit footer c0) as [c2| |] eqn:E1; try discriminate H end. cbn [obind] in H.
      apply emit_same in E1 as (A1 & A2 & _). apply emit_same in H as (B1 & B2 & _). cbn in *. unfold dimg in *. rewrite B1, B2, A1, A2. exact D.
    - injection H as <-. destruct ((0 <? n) && (n <? zlen (c_pages c))); exact D.
    - apply emit_same in H as (B1 & B2 & _). unfold dimg in *. rewrite B1, B2. exact D.
    - injection H as <-. destruct (c_err c); [exact D|]. destruct (get name (c_imgs c)); [exact D|]. destruct D as (D1 & D2). split; cbn [c_imgs c_tpls].
      + apply put_named; [now apply Hi|exact D1].
      + intros k s I. destruct (D2 k s I) as (B1 & B2). split; [exact B1|]. intros j Hj. apply put_shows; [now apply Hi|exact D1|now apply B2].
    - destruct (Hu t place eq_refl) as (Tb & T & Tv). exact (use_imgs t place c c' Tb T Tv D H).
    - injection H as <-. exact D.
  Qed.
  Lemma run_imgs : forall l (c c' : tdoc), (forall u place, In (Use (Some u) place) l -> built u /\ alli u) -> (forall k v, In (@AddImage num data k v) l -> v = N k) ->
    dimg c -> run sha1hex shuffle l c = Ret c' -> dimg c'.
  Proof.
    induction l as [|x l IH]; intros c c' Hu Hi D H; [injection H as <-; exact D|]. cbn [run] in H. destruct (step sha1hex shuffle x c) as [d| |] eqn:E; try discriminate H. cbn [obind] in H.
    apply (IH d c'); [intros u p I; apply (Hu u p); now right|intros k v I; apply Hi; now right| |exact H].
    apply (step_imgs x c d); [intros u p ->; apply (Hu u p); now left|intros k v ->; apply Hi; now left|exact D|exact E].
  Qed.
  Lemma built_imgs t : built t -> alli t.
  Proof.
    induction 1 as [corner size imgs begin l t H1 H2 H3 IH H4|t k t' H1 IH H2 H3].
    - unfold new_tpl in H4. destruct (run sha1hex shuffle (AddPage [] begin :: l) (tpl_start num imgs)) as [c| |] eqn:Er; try discriminate H4. cbn [obind] in H4. injection H4 as <-.
      assert (D : dimg c).
      { apply (run_imgs (AddPage [] begin :: l) (tpl_start num imgs) c); [intros u p [E|I]; [discriminate E|exact (conj (H3 u p I) (IH u p I))]|intros k v [E|I]; [discriminate E|exact (H2 k v I)]| |exact Er].
        split; [exact H1|intros k s []]. }
      destruct D as (D1 & D2).
      assert (Sub : forall u, In u (map snd (sort_by by_key (c_tpls c))) -> exists k, In (k, u) (c_tpls c)).
      { intros u I. apply in_map_iff in I as ((k, x) & <- & I). exists k. exact (Permutation_in _ (sort_by_perm _ _) I). }
      split; [split; [exact D1|]|]; cbn [t_subs]; intros s I; apply Sub in I as (k & I); destruct (D2 k s I) as (B1 & B2); [exact B2|exact B1].
    - assert (K : 1 <= k <= num_pages t) by (unfold from_page in H3; destruct (k =? 0); [discriminate H3|]; destruct (num_pages t <? k) eqn:E; [discriminate H3|lia]).
      destruct (from_page_spec _ _ t k K) as (t2 & F2 & _ & _ & _ & Fi & Fu). rewrite H3 in F2. injection F2 as <-.
      unfold alli, iinv, SerSpec.has_image in *. rewrite Fu, Fi. exact IH.
  Qed.

  (** ** Everything used inside a built template is one *)
  Lemma built_sub t s : built t -> In s (t_subs t) -> built s.
  Proof. intros H I. exact (proj1 (proj2 (built_imgs t H) s I)). Qed.
  Lemma built_id t : built t -> t_id sha1hex t = Ret (id_of t).
  Proof. intros H. exact (proj1 (proj1 (proj2 (made_inv _ _ _ _ t (built_made t H))))). Qed.
  Lemma built_closed t u r : built t -> In u (t_subs t) -> In r (t_subs u) -> exists r', In r' (t_subs t) /\ id_of r' = id_of r.
  Proof. intros H. exact (proj2 (proj2 (proj1 (proj2 (made_inv _ _ _ _ t (built_made t H))))) u r). Qed.
  Lemma inside_sub t u s : inside s t -> In u (t_subs s) -> inside u t.
  Proof. induction 1 as [t|s v t Hv Hw IH]; intros I; [econstructor 2; [exact I|constructor]|econstructor 2; [exact Hv|now apply IH]]. Qed.
  Lemma inside_trans a b t : inside a b -> inside b t -> inside a t.
  Proof. intros H1 H2. revert H1. induction H2 as [t|s v t Hv Hw IH]; intros H1; [exact H1|econstructor 2; [exact Hv|now apply IH]]. Qed.

  (** the size of a template as a tree *)
  Fixpoint weight (t : tmpl) : nat := let 'Tm _ _ _ _ subs _ := t in S (list_sum (map weight subs)).
  Lemma weight_sub t s : In s (t_subs t) -> (weight s < weight t)%nat.
  Proof.
    destruct t as [c z p i subs g]. cbn [t_subs weight]. intros I. enough (weight s <= list_sum (map weight subs))%nat by lia.
    unfold list_sum. induction subs as [|x l IH]; [destruct I|]. cbn [map fold_right]. destruct I as [->|I]; [lia|specialize (IH I); lia].
  Qed.

  (** the templates that are written: those that no other one uses *)
  Definition leader (t y : tmpl) : Prop := In y (t_subs t) /\ forall z r, In z (t_subs t) -> In r (t_subs z) -> id_of r <> id_of y.
  Lemma find_leader t : built t -> told_apart num data sha1hex t -> forall s, In s (t_subs t) -> exists y, leader t y /\ (y = s \/ In s (t_subs y)).
  Proof.
    intros Hb Ha s Hs.
    assert (In1 : forall x, In x (t_subs t) -> inside x t) by (intros x I; econstructor 2; [exact I|constructor]).
    assert (In2 : forall x r, In x (t_subs t) -> In r (t_subs x) -> inside r t) by (intros x r I J; econstructor 2; [exact I|econstructor 2; [exact J|constructor]]).
    assert (Eq : forall a b, inside a t -> inside b t -> built a -> built b -> id_of a = id_of b -> a = b)
      by (intros a b A B A' B' E; apply Ha; auto; rewrite (built_id a A'), (built_id b B'), E; reflexivity).
    assert (Dec : forall y, In y (t_subs t) -> leader t y \/ exists z, In z (t_subs t) /\ In y (t_subs z)).
    { intros y Iy. destruct (existsb (fun r => beqb (id_of r) (id_of y)) (flat_map (fun z => t_subs z) (t_subs t))) eqn:E.
      - right. apply existsb_exists in E as (r & I & E). apply beqb_eq in E. apply in_flat_map in I as (z & Iz & Ir). exists z. split; [exact Iz|].
        assert (r = y) as <-; [|exact Ir]. apply Eq; [now apply (In2 z)|now apply In1|eapply built_sub; [eapply built_sub; [exact Hb|exact Iz]|exact Ir]|eapply built_sub; eauto|exact E].
      - left. split; [exact Iy|]. intros z r Iz Ir K. assert (X : existsb (fun r => beqb (id_of r) (id_of y)) (flat_map (fun z => t_subs z) (t_subs t)) = true).
        { apply existsb_exists. exists r. split; [apply in_flat_map; now exists z|]. rewrite K. apply beqb_refl. }
        rewrite X in E. discriminate E. }
    assert (Go : forall n y, (weight t - weight y <= n)%nat -> In y (t_subs t) -> (y = s \/ In s (t_subs y)) -> exists y, leader t y /\ (y = s \/ In s (t_subs y))).
    { induction n as [|n IH]; intros y Hn Iy Hy; destruct (Dec y Iy) as [L|(z & Iz & Ir)]; try (now exists y).
      - pose proof (weight_sub t y Iy). pose proof (weight_sub t z Iz). pose proof (weight_sub z y Ir). lia.
      - apply (IH z); [pose proof (weight_sub z y Ir); pose proof (weight_sub t z Iz); lia|exact Iz|]. right. destruct Hy as [<-|Hy]; [exact Ir|].
        destruct (built_closed z y s) as (s' & Is & Es); [eapply built_sub; eauto|exact Ir|exact Hy|].
        assert (s' = s) as <-; [|exact Is]. apply Eq; [now apply (In2 z)|now apply In1|eapply built_sub; [eapply built_sub; [exact Hb|exact Iz]|exact Is]|eapply built_sub; eauto|exact Es]. }
    apply (Go (weight t) s); [lia|exact Hs|now left].
  Qed.

  (** ** Maps of images *)
  Definition puts (l m : list (bytes * img)) : list (bytes * img) := fold_left (fun m e => put (fst e) (snd e) m) l m.
  Lemma puts_spec : forall l m, named l -> named m ->
    named (puts l m) /\ (forall i, shows (puts l m) i <-> shows m i \/ shows l i) /\ (forall k, In k (map fst (puts l m)) <-> In k (map fst m) \/ In k (map fst l)).
  Proof.
    induction l as [|[k v] l IH]; intros m Hl Hm.
    - split; [exact Hm|]. split; [intros i; split; [now left|intros [H|(x & w & [] & _)]; exact H]|intros k; cbn; intuition].
    - assert (Hl' : named l) by (intros x w I; apply Hl; now right). assert (Hv : v = N k) by (apply Hl; now left).
      assert (Hm' : named (put k v m)) by now apply put_named. destruct (IH (put k v m) Hl' Hm') as (A1 & A2 & A3).
      unfold puts in *. cbn [fold_left fst snd]. split; [exact A1|]. split.
      + intros i. rewrite A2. split.
        * intros [(x & w & I & Hi)|(x & w & I & Hi)]; [|right; exists x, w; split; [now right|exact Hi]].
          apply in_put in I as [[= -> ->]|I]; [right; exists k, v; split; [now left|exact Hi]|left; now exists x, w].
        * intros [H|(x & w & [[= -> ->]|I] & Hi)]; [left; now apply put_shows|left; exists x, w; split; [apply put_has|exact Hi]|right; now exists x, w].
      + intros x. rewrite A3, put_in_keys. cbn [map fst In]. assert (x = k <-> k = x) by (split; congruence). tauto.
  Qed.
  Definition renamed (t : tmpl) : list (bytes * img) := map (fun e => (tname (id_of t) (fst e), snd e)) (t_images t).
  Lemma child_in_puts i : forall l m, child_images_in i l m = puts (map (fun e => (tname i (fst e), snd e)) l) m.
  Proof. unfold child_images_in, puts. induction l as [|e l IH]; intros m; [reflexivity|]. cbn. apply IH. Qed.
  Lemma puts_app a b m : puts (a ++ b) m = puts b (puts a m).
  Proof. unfold puts. apply fold_left_app. Qed.
  Lemma children_images_puts : forall l m, (forall t, In t l -> t_id sha1hex t = Ret (id_of t)) -> children_images sha1hex l m = Ret (puts (flat_map renamed l) m).
  Proof.
    induction l as [|t l IH]; intros m H; [reflexivity|]. cbn [children_images flat_map]. rewrite (H t (or_introl eq_refl)). cbn [obind].
    rewrite child_in_puts, puts_app. apply IH. intros u I. apply H. now right.
  Qed.
  Lemma renamed_named t : named (t_images t) -> named (renamed t).
  Proof. intros H k v I. apply in_map_iff in I as ([x w] & [= <- <-] & I). cbn [fst snd]. rewrite N_names. now apply H. Qed.
  Lemma renamed_shows t i : shows (renamed t) i <-> has_image t i.
  Proof.
    split.
    - intros (k & v & I & Hi). apply in_map_iff in I as ([x w] & [= <- <-] & I). now exists x, w.
    - intros (k & v & I & Hi). exists (tname (id_of t) k), v. split; [|exact Hi]. apply in_map_iff. now exists (k, v).
  Qed.
  Lemma flat_shows l i : shows (flat_map renamed l) i <-> exists t, In t l /\ has_image t i.
  Proof.
    split.
    - intros (k & v & I & Hi). apply in_flat_map in I as (t & It & I). exists t. split; [exact It|]. apply renamed_shows. now exists k, v.
    - intros (t & It & H). apply renamed_shows in H as (k & v & I & Hi). exists k, v. split; [|exact Hi]. apply in_flat_map. now exists t.
  Qed.
  Lemma flat_named l : (forall t, In t l -> named (t_images t)) -> named (flat_map renamed l).
  Proof. intros H k v I. apply in_flat_map in I as (t & It & I). exact (renamed_named t (H t It) k v I). Qed.

  (** ** Writing *)
  Lemma ids_ok : forall l, (forall t, In t l -> t_id sha1hex t = Ret (id_of t)) -> ids sha1hex l = Ret (map id_of l).
  Proof.
    induction l as [|t l IH]; intros H; [reflexivity|]. cbn [ids map]. rewrite (H t (or_introl eq_refl)). cbn [obind].
    rewrite IH by (intros u I; apply H; now right). reflexivity.
  Qed.
  Definition kept (inner : list bytes) (l : list tmpl) : list tmpl := filter (fun s => negb (existsb (beqb (id_of s)) inner)) l.
  Lemma first_class_ok enc inner : forall l, (forall t, In t l -> t_id sha1hex t = Ret (id_of t)) -> (forall t, In t l -> exists w, enc t = Ret w) ->
    exists ws, first_class sha1hex inner (map (fun s => (s, enc s)) l) = Ret ws /\ Forall2 (fun s (w : wire num data) => enc s = Ret w) (kept inner l) ws.
  Proof.
    induction l as [|t l IH]; intros H H2; [exists []; split; [reflexivity|constructor]|].
    destruct IH as (ws & E & F); [intros u I; apply H; now right|intros u I; apply H2; now right|]. destruct (H2 t (or_introl eq_refl)) as (w & W).
    cbn [map first_class]. rewrite (H t (or_introl eq_refl)), E, W. cbn [obind]. unfold kept. cbn [filter]. fold (kept inner l).
    destruct inner as [|i0 inner]; [cbn [existsb negb]; exists (w :: ws); split; [reflexivity|now constructor]|].
    set (il := i0 :: inner) in *. destruct (existsb (beqb (id_of t)) il) eqn:X; cbn [negb].
    - exists ws. now split.
    - exists (w :: ws). split; [reflexivity|now constructor].
  Qed.
  Lemma all_ret_ok {A B} (f : A -> outcome B) (R : A -> B -> Prop) : forall l, (forall x, In x l -> exists y, f x = Ret y /\ R x y) ->
    exists ys, all_ret (map f l) = Ret ys /\ Forall2 R l ys.
  Proof.
    induction l as [|x l IH]; intros H; [exists []; split; [reflexivity|constructor]|]. destruct (H x (or_introl eq_refl)) as (y & E & Ry).
    destruct IH as (ys & E2 & F); [intros z I; apply H; now right|]. exists (y :: ys). split; [cbn [map all_ret]; rewrite E; cbn [obind]; now rewrite E2|now constructor].
  Qed.
  Lemma Forall2_in_l {A B} (R : A -> B -> Prop) l m x : Forall2 R l m -> In x l -> exists y, In y m /\ R x y.
  Proof. induction 1 as [|a b l m H F IH]; [intros []|]. intros [->|I]; [exists b; split; [now left|exact H]|]. destruct (IH I) as (y & Iy & Ry). exists y. split; [now right|exact Ry]. Qed.
  Lemma Forall2_in_r {A B} (R : A -> B -> Prop) l m y : Forall2 R l m -> In y m -> exists x, In x l /\ R x y.
  Proof. induction 1 as [|a b l m H F IH]; [intros []|]. intros [->|I]; [exists a; split; [now left|exact H]|]. destruct (IH I) as (x & Ix & Rx). exists x. split; [now right|exact Rx]. Qed.
  Lemma Forall2_comp {A B C} (R : A -> B -> Prop) (S : B -> C -> Prop) l m n : Forall2 R l m -> Forall2 S m n -> Forall2 (fun x z => exists y, R x y /\ S y z) l n.
  Proof. intros H. revert n. induction H as [|a b l m H F IH]; intros n G; inversion G; subst; constructor; eauto. Qed.

  Definition back (t u : tmpl) : Prop := t_id sha1hex u = Ret (id_of t) /\ same t u /\ named (t_images u).
  Lemma roundtrip : forall n t, (weight t <= n)%nat -> built t -> told_apart num data sha1hex t ->
    exists w u, encode sha1hex t = Ret w /\ decode sha1hex ihash w = Ret u /\ back t u.
  Proof.
    induction n as [|n IHn]; intros t Hn Hb Ha; [destruct t; cbn in Hn; lia|].
    pose proof (built_imgs t Hb) as ((Tn & Ti) & _).
    assert (Bs : forall s, In s (t_subs t) -> built s) by (intros s I; now apply (built_sub t)).
    assert (IH : forall s, In s (t_subs t) -> exists w u, encode sha1hex s = Ret w /\ decode sha1hex ihash w = Ret u /\ back s u).
    { intros s I. apply IHn; [pose proof (weight_sub t s I); lia|now apply Bs|]. intros a b A B. apply Ha; (eapply inside_trans; [eassumption|]; econstructor 2; [exact I|constructor]). }
    assert (Eq : forall a b, inside a t -> inside b t -> built a -> built b -> id_of a = id_of b -> a = b)
      by (intros a b A B A' B' E; apply Ha; auto; rewrite (built_id a A'), (built_id b B'), E; reflexivity).
    assert (In1 : forall x, In x (t_subs t) -> inside x t) by (intros x I; econstructor 2; [exact I|constructor]).
    assert (In2 : forall x r, In x (t_subs t) -> In r (t_subs x) -> inside r t) by (intros x r I J; econstructor 2; [exact I|econstructor 2; [exact J|constructor]]).
    pose proof (find_leader t Hb Ha) as Lead. pose proof (built_closed t) as Cl. pose proof (built_id t Hb) as Tid.
    set (inner := map id_of (children_templates (t_subs t))).
    assert (Cid : ids sha1hex (children_templates (t_subs t)) = Ret inner).
    { apply ids_ok. intros r I. apply in_flat_map in I as (z & Iz & Ir). apply built_id. apply (built_sub z r (Bs z Iz) Ir). }
    destruct (first_class_ok (encode (num := num) (data := data) sha1hex) inner (t_subs t)) as (ws & Fc & Fw);
      [intros s I; apply built_id, Bs, I|intros s I; destruct (IH s I) as (w & u & E & _); now exists w|].
    assert (Kl : forall s, In s (kept inner (t_subs t)) <-> leader t s).
    { intros s. unfold kept. rewrite filter_In. unfold leader. split.
      - intros (I & E). split; [exact I|]. intros z r Iz Ir K. apply Bool.negb_true_iff in E.
        assert (X : existsb (beqb (id_of s)) inner = true); [|rewrite X in E; discriminate E]. apply existsb_exists. exists (id_of r).
        split; [|rewrite K; apply beqb_refl]. unfold inner. apply in_map. apply in_flat_map. now exists z.
      - intros (I & K). split; [exact I|]. apply Bool.negb_true_iff. destruct (existsb (beqb (id_of s)) inner) eqn:E; [|reflexivity].
        apply existsb_exists in E as (i & Ii & E). apply beqb_eq in E. subst i. unfold inner in Ii. apply in_map_iff in Ii as (r & Er & Ir).
        apply in_flat_map in Ir as (z & Iz & Ir). now apply (K z r Iz Ir) in Er. }
    assert (Bk : exists us, all_ret (map (decode sha1hex ihash) ws) = Ret us /\ Forall2 back (kept inner (t_subs t)) us).
    { assert (Q : forall l, (forall s, In s l -> In s (t_subs t)) -> forall ws, Forall2 (fun s w => encode sha1hex s = Ret w) l ws ->
        exists us, all_ret (map (decode sha1hex ihash) ws) = Ret us /\ Forall2 back l us).
      { clear Fw Fc Kl ws. intros l Hl ws F. induction F as [|s w l ws E F IHF]; [exists []; split; [reflexivity|constructor]|].
        destruct (IH s (Hl s (or_introl eq_refl))) as (w2 & u & E1 & E2 & B). rewrite E in E1. injection E1 as <-.
        destruct IHF as (us & E3 & F3); [intros x I; apply Hl; now right|]. exists (u :: us). split; [cbn [map all_ret]; rewrite E2; cbn [obind]; now rewrite E3|now constructor]. }
      apply (Q (kept inner (t_subs t))); [intros s I; apply Kl in I; exact (proj1 I)|exact Fw]. }
    destruct Bk as (us & Ar & Bk).
    pose proof (children_images_puts (t_subs t) [] (fun s I => built_id s (Bs s I))) as Ci.
    assert (Nsub : forall s, In s (t_subs t) -> named (t_images s)) by (intros s I; exact (proj1 (proj1 (built_imgs s (Bs s I))))).
    destruct (puts_spec (flat_map renamed (t_subs t)) []) as (_ & _ & Ck); [now apply flat_named|intros k v []|].
    set (ci := puts (flat_map renamed (t_subs t)) []) in *.
    set (own := filter (fun e : bytes * img => match get (fst e) ci with Some _ => false | None => true end) (t_images t)).
    assert (Own : map (img_in ihash) (map (img_out (data := data)) own) = own).
    { rewrite map_map. transitivity (map (fun e => e) own); [|apply map_id]. apply map_ext_in. intros (k & v) I. unfold own in I. apply filter_In in I as (I & _).
      unfold img_in, img_out. cbn [fst snd]. f_equal. pose proof (Tn k v I) as ->. pose proof (N_reg k) as R. unfold as_registered in R. destruct (N k) as [d0 n0 i0]. cbn in *. now rewrite R. }
    assert (Uid : forall u, In u us -> t_id sha1hex u = Ret (id_of u)).
    { intros u I. destruct (Forall2_in_r _ _ _ u Bk I) as (s & _ & (B1 & _)). rewrite B1. f_equal. unfold TplProps.id_of at 2. now rewrite B1. }
    pose proof (children_images_puts us [] Uid) as Ci2.
    assert (Nu : forall u, In u us -> named (t_images u)) by (intros u I; destruct (Forall2_in_r _ _ _ u Bk I) as (s & _ & (_ & _ & B3)); exact B3).
    destruct (puts_spec (flat_map renamed us) []) as (Cn2 & Cs2 & _); [now apply flat_named|intros k v []|].
    set (ci2 := puts (flat_map renamed us) []) in *.
    assert (On : named own) by (intros k v I; unfold own in I; apply filter_In in I as (I & _); now apply Tn).
    destruct (puts_spec ci2 own Cn2 On) as (An & As & _).
    destruct t as [corner size pages images subs page]. cbn [t_subs t_images] in *.
    exists (Wire ws (map (img_out (data := data)) own) corner size pages page),
      (Tm corner size pages (puts ci2 own) (children_templates us ++ us) page).
    split; [cbn [encode]; rewrite Cid; cbn [obind]; rewrite Fc; cbn [obind]; rewrite Ci; reflexivity|].
    split; [cbn [decode]; rewrite Ar; cbn [obind]; rewrite Ci2; cbn [obind]; rewrite Own; reflexivity|].
    split; [|split; [|exact An]].
    - unfold t_id, t_bytes in *. cbn [t_pages t_page] in *. exact Tid.
    - constructor; cbn [t_size t_pages t_page t_subs]; try reflexivity.
      + intros i. change (shows images i <-> shows (puts ci2 own) i). rewrite As, Cs2. split.
        * intros (k & v & I & Hi). destruct (get k ci) as [v'|] eqn:G.
          -- right. right. apply flat_shows. apply get_in in G. apply (in_map fst) in G. apply Ck in G. destruct G as [[]|G]. cbn in G.
             apply in_map_iff in G as ((k1 & v1) & K1 & I1). cbn in K1. subst k1. apply in_flat_map in I1 as (s & Is & I1).
             assert (Hs : has_image s i).
             { apply in_map_iff in I1 as ([x w] & [= X1 X2] & I1). cbn [fst snd] in X1, X2. exists x, w. split; [exact I1|].
               rewrite (Nsub s Is x w I1), <- Hi, (Tn k v I), <- X1, N_names. reflexivity. }
             destruct (Lead s Is) as (y & Ly & Hy).
             assert (Hyi : has_image y i) by (destruct Hy as [->|Hy]; [exact Hs|exact (proj2 (proj1 (built_imgs y (Bs y (proj1 Ly)))) s Hy i Hs)]).
             destruct (Forall2_in_l _ _ _ y Bk (proj2 (Kl y) Ly)) as (u & Iu & (_ & Su & _)). exists u. split; [exact Iu|].
             inversion Su as [? ? _ _ _ Si _ _]; subst. now apply Si.
          -- left. exists k, v. split; [|exact Hi]. unfold own. apply filter_In. split; [exact I|]. cbn [fst]. now rewrite G.
        * intros [(k & v & I & Hi)|[(k & v & [] & _)|H]].
          -- exists k, v. split; [|exact Hi]. unfold own in I. now apply filter_In in I as (I & _).
          -- apply flat_shows in H as (u & Iu & H). destruct (Forall2_in_r _ _ _ u Bk Iu) as (s & Is & (_ & Su & _)). apply Kl in Is.
             apply (Ti s (proj1 Is)). inversion Su as [? ? _ _ _ Si _ _]; subst. now apply Si.
      + intros a I. destruct (Lead a I) as (y & Ly & Hy). destruct (Forall2_in_l _ _ _ y Bk (proj2 (Kl y) Ly)) as (u & Iu & (_ & Su & _)).
        destruct Hy as [->|Hy]; [exists u; split; [apply in_or_app; now right|exact Su]|].
        inversion Su as [? ? _ _ _ _ Sa _]; subst. destruct (Sa a Hy) as (b & Ib & Sb). exists b. split; [|exact Sb].
        apply in_or_app. left. apply in_flat_map. now exists u.
      + intros b I. apply in_app_or in I as [I|I].
        * apply in_flat_map in I as (u & Iu & Ib). destruct (Forall2_in_r _ _ _ u Bk Iu) as (s & Is & (_ & Su & _)). apply Kl in Is as (Is & _).
          inversion Su as [? ? _ _ _ _ _ Sb]; subst. destruct (Sb b Ib) as (a & Ia & Sab). exists a. split; [|exact Sab].
          destruct (Cl s a Hb Is Ia) as (a' & Ia' & Ea).
          assert (a' = a) as <-; [|exact Ia']. apply Eq; [now apply In1|now apply (In2 s)|now apply Bs|exact (built_sub s a (Bs s Is) Ia)|exact Ea].
        * destruct (Forall2_in_r _ _ _ b Bk I) as (s & Is & (_ & Su & _)). apply Kl in Is as (Is & _). now exists s.
  Qed.
End Proofs.

(** ** C79 *)
(** Reading back what Serialize wrote gives a template that draws the same: its corner and size, all its pages and the current
    one, hence its identifier, its images, and the templates it uses, each the same in turn.  For every template a program can
    create, as long as one image name means one image, no image was changed since it was registered, and different templates
    inside it have different contents. *)
Theorem C79_roundtrip_partial : forall (num data : Type) (sha1hex : bytes -> bytes) (ihash : data -> Z -> bytes) shuffle (N : bytes -> img data) t,
  (forall l, Permutation (shuffle l) l) -> naming data N -> (forall k, as_registered data ihash (N k)) ->
  built num data sha1hex shuffle N t -> told_apart num data sha1hex t ->
  exists w u, serialize sha1hex t = Ret w /\ deserialize sha1hex ihash w = Ret u /\ same num data t u /\
    t_id sha1hex u = t_id sha1hex t /\ num_pages u = num_pages t /\ (forall k v, In (k, v) (t_images u) -> v = N k).
Proof.
  intros num data sha1hex ihash shuffle N t Hs Hn Hr Hb Ha.
  destruct (roundtrip num data sha1hex ihash shuffle Hs N Hn Hr (weight num data t) t (le_n _) Hb Ha) as (w & u & E & D & (B1 & B2 & B3)).
  exists w, u. split; [exact E|]. split; [exact D|]. split; [exact B2|]. split; [|split; [|exact B3]].
  - rewrite B1. symmetry. now apply (built_id num data sha1hex shuffle N).
  - unfold num_pages. inversion B2 as [? ? _ Hp _ _ _ _]; subst. now rewrite Hp.
Qed.

Section Cases.
  Let keep (l : list (bytes * img bytes)) : list (bytes * img bytes) := l.
  Let sha (b : bytes) : bytes := b.
  Let ih (d : bytes) (n : Z) : bytes := d ++ [48 + n].
  Let pic (d : bytes) : img bytes := {| ig_data := d; ig_n := 0; ig_i := ih d 0 |}.
  Let N (k : bytes) : img bytes := pic [last k 45].
  Let nt := new_tpl (num := Z) sha keep (0, 0) (10, 10).
  Definition case_x : tmpl Z bytes := Tm (0, 0) (10, 10) [[]; bs "x /Ig0 Do"] [(bs "a.png", pic (bs "g"))] [] 1.
  Definition case_y : tmpl Z bytes := Tm (0, 0) (10, 10) [[]; bs "q/TPLx /Ig0 Do Do Q" ++ nl]
    [(bs "b.jp", pic (bs "p")); (tname (bs "x /Ig0 Do") (bs "a.png"), pic (bs "g"))] [case_x] 1.
  Definition case_t : tmpl Z bytes :=
    Tm (0, 0) (10, 10) [[]; bs "q/TPLx /Ig0 Do Do Q" ++ nl ++ bs "q/TPLq/TPLx /Ig0 Do Do Q" ++ nl ++ bs " Do Q" ++ nl]
      [(tname (bs "x /Ig0 Do") (bs "a.png"), pic (bs "g")); (tname (bs "q/TPLx /Ig0 Do Do Q" ++ nl) (bs "b.jp"), pic (bs "p"))]
      [case_y; case_x] 1.
  Lemma case_naming : naming bytes N.
  Proof.
    intros id k. unfold N. do 2 f_equal. unfold tname. rewrite !app_assoc. destruct k as [|c k].
    - rewrite app_nil_r. change (bs "-") with [45]. now rewrite last_last.
    - set (a := (bs "t" ++ id) ++ bs "-"). clearbody a. induction a as [|x a IH]; [reflexivity|]. cbn [app]. rewrite <- IH.
      destruct (a ++ c :: k) eqn:E; [destruct a; discriminate E|reflexivity].
  Qed.
  Lemma case_built : built Z bytes sha keep N case_t.
  Proof.
    assert (Bx : built Z bytes sha keep N case_x).
    { apply (built_new _ _ _ _ _ (0, 0) (10, 10) [] [] ([@AddImage Z bytes (bs "a.png") (pic (bs "g")); @Draw Z bytes (bs "x /Ig0 Do")]));
        [intros k v []|intros k v [[= <- <-]|[E|[]]]; [reflexivity|discriminate E]|intros u p [E|[E|[]]]; discriminate E|reflexivity]. }
    assert (By : built Z bytes sha keep N case_y).
    { apply (built_new _ _ _ _ _ (0, 0) (10, 10) [(bs "b.jp", pic (bs "p"))] [] [Use (Some case_x) (bs "q")]);
        [intros k v [[= <- <-]|[]]; reflexivity|intros k v [E|[]]; discriminate E|intros u p [[= <- <-]|[]]; exact Bx|reflexivity]. }
    apply (built_new _ _ _ _ _ (0, 0) (10, 10) [] [] [Use (Some case_x) (bs "q"); Use (Some case_y) (bs "q")]);
      [intros k v []|intros k v [E|[E|[]]]; discriminate E|intros u p [[= <- <-]|[[= <- <-]|[]]]; [exact Bx|exact By]|reflexivity].
  Qed.
  Lemma case_apart : told_apart Z bytes sha case_t.
  Proof.
    assert (X : forall a, inside Z bytes a case_x -> a = case_x) by (intros a H; inversion H as [|? u ? I]; subst; [reflexivity|destruct I]).
    assert (Y : forall a, inside Z bytes a case_y -> a = case_y \/ a = case_x)
      by (intros a H; inversion H as [|? u ? I J]; subst; [now left|]; cbn in I; destruct I as [<-|[]]; right; now apply X).
    assert (T : forall a, inside Z bytes a case_t -> a = case_t \/ a = case_y \/ a = case_x).
    { intros a H. inversion H as [|? u ? I J]; subst; [now left|]. cbn in I. destruct I as [<-|[<-|[]]]; right; [now apply Y|right; now apply X]. }
    intros a b A B E. apply T in A as [->|[->| ->]]; apply T in B as [->|[->| ->]]; try reflexivity; discriminate E.
  Qed.
  (** the hypotheses are met by a template that uses another one directly and through a third *)
  Example C79_case : exists w u, serialize sha case_t = Ret w /\ deserialize sha ih w = Ret u /\ same Z bytes case_t u.
  Proof.
    destruct (C79_roundtrip_partial Z bytes sha ih keep N case_t) as (w & u & E & D & S & _); [reflexivity|exact case_naming|reflexivity|exact case_built|exact case_apart|].
    now exists w, u.
  Qed.

  (** After the document was written the images have object numbers; a template written then comes back with other image
      identifiers than its pages draw. *)
  Theorem C79_numbered_refuted : ~ (forall (num data : Type) (sha1hex : bytes -> bytes) (ihash : data -> Z -> bytes) (t : tmpl num data) w u,
    (forall d d' n n', ihash d n = ihash d' n' -> d = d' /\ n = n') ->
    (forall k im, In (k, im) (t_images t) -> ig_i im = ihash (ig_data im) 0) ->
    serialize sha1hex t = Ret w -> deserialize sha1hex ihash w = Ret u -> forall i, has_image num data t i -> has_image num data u i).
  Proof.
    intros H. set (t := Tm (0, 0) (10, 10) [[]; bs "/Ig0 Do"] [(bs "a.png", {| ig_data := bs "g"; ig_n := 5; ig_i := ih (bs "g") 0 |})] [] 1 : tmpl Z bytes).
    assert (Inj : forall d d' n n', ih d n = ih d' n' -> d = d' /\ n = n').
    { intros d d' n n' E. unfold ih in E. apply app_inj_tail in E as [-> E]. split; [reflexivity|lia]. }
    destruct (H Z bytes sha ih t _ _ Inj ltac:(intros k im [[= <- <-]|[]]; reflexivity) eq_refl eq_refl (ih (bs "g") 0)) as (k & im & I & E).
    - exists (bs "a.png"), {| ig_data := bs "g"; ig_n := 5; ig_i := ih (bs "g") 0 |}. split; [now left|reflexivity].
    - vm_compute in I. destruct I as [[= <- <-]|[]]. vm_compute in E. discriminate E.
  Qed.
  (** The names of the images are not kept: an image that was there under the name of a template used directly is only there
      under the name of the template that uses it. *)
  Theorem C79_names_refuted : ~ (forall (num data : Type) (sha1hex : bytes -> bytes) (ihash : data -> Z -> bytes) shuffle (Nm : bytes -> img data) t w u,
    (forall l, Permutation (shuffle l) l) -> naming data Nm -> (forall k, as_registered data ihash (Nm k)) ->
    built num data sha1hex shuffle Nm t -> told_apart num data sha1hex t -> serialize sha1hex t = Ret w -> deserialize sha1hex ihash w = Ret u ->
    forall k, get k (t_images t) <> None -> get k (t_images u) <> None).
  Proof.
    intros H. specialize (H Z bytes sha ih keep N case_t). assert (E : exists w u, serialize sha case_t = Ret w /\ deserialize sha ih w = Ret u /\
      get (tname (bs "x /Ig0 Do") (bs "a.png")) (t_images case_t) <> None /\ get (tname (bs "x /Ig0 Do") (bs "a.png")) (t_images u) = None).
    { eexists. eexists. split; [vm_compute; reflexivity|]. split; [vm_compute; reflexivity|]. split; [vm_compute; discriminate|vm_compute; reflexivity]. }
    destruct E as (w & u & E1 & E2 & E3 & E4). exact (H w u (fun l => Permutation_refl l) case_naming (fun k => eq_refl) case_built case_apart E1 E2 _ E3 E4).
  Qed.
  (** A template that two others use comes back twice. *)
  Theorem C79_repeated_refuted : ~ (forall (num data : Type) (sha1hex : bytes -> bytes) (ihash : data -> Z -> bytes) (t : tmpl num data) w u,
    told_apart num data sha1hex t -> serialize sha1hex t = Ret w -> deserialize sha1hex ihash w = Ret u -> length (t_subs u) = length (t_subs t)).
  Proof.
    intros H. set (x := Tm (0, 0) (1, 1) [[]; bs "x"] [] [] 1 : tmpl Z bytes). set (y := Tm (0, 0) (1, 1) [[]; bs "y"] [] [x] 1 : tmpl Z bytes). set (z := Tm (0, 0) (1, 1) [[]; bs "z"] [] [x] 1 : tmpl Z bytes).
    set (t := Tm (0, 0) (1, 1) [[]; bs "t"] [] [x; y; z] 1 : tmpl Z bytes).
    assert (A : told_apart Z bytes sha t).
    { assert (X : forall a, inside Z bytes a x -> a = x) by (intros a K; inversion K as [|? u ? I]; subst; [reflexivity|destruct I]).
      assert (Y : forall a, inside Z bytes a y -> a = y \/ a = x) by (intros a K; inversion K as [|? u ? I J]; subst; [now left|]; cbn in I; destruct I as [<-|[]]; right; now apply X).
      assert (Zz : forall a, inside Z bytes a z -> a = z \/ a = x) by (intros a K; inversion K as [|? u ? I J]; subst; [now left|]; cbn in I; destruct I as [<-|[]]; right; now apply X).
      assert (T : forall a, inside Z bytes a t -> a = t \/ a = x \/ a = y \/ a = z).
      { intros a K. inversion K as [|? u ? I J]; subst; [now left|]. cbn in I. destruct I as [<-|[<-|[<-|[]]]]; [right; left; now apply X|destruct (Y a J); auto|destruct (Zz a J); auto]. }
      intros a b A B E. apply T in A as [->|[->|[->| ->]]]; apply T in B as [->|[->|[->| ->]]]; try reflexivity; discriminate E. }
    specialize (H Z bytes sha ih t _ _ A eq_refl eq_refl). discriminate H.
  Qed.
End Cases.
Print Assumptions C79_roundtrip_partial.
Print Assumptions C79_numbered_refuted.
Print Assumptions C79_names_refuted.
Print Assumptions C79_repeated_refuted.
