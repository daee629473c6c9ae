(** Invariants for C55 and C83. *)
From Coq Require Import String.
From Verif Require Import Base TextModel UseModel.
Local Open Scope list_scope.
Open Scope Z_scope.
Notation length := List.length.

Lemma beqb_spec a b : beqb a b = true <-> a = b.
Proof. apply beqb_eq. Qed.

(** ** Maps and lists *)
Lemma get_put_same {A} k (v : A) m : get k (put k v m) = Some v.
Proof. induction m as [|[x w] m IH]; cbn; [now rewrite beqb_refl|]. destruct (beqb k x) eqn:E; cbn; [now rewrite beqb_refl|now rewrite E]. Qed.
Lemma get_put_other {A} k k' (v : A) m : k' <> k -> get k' (put k v m) = get k' m.
Proof.
  intros N. induction m as [|[x w] m IH]; cbn.
  - destruct (beqb k' k) eqn:E; [apply beqb_eq in E; contradiction|reflexivity].
  - destruct (beqb k x) eqn:E; cbn; [apply beqb_eq in E; subst x|].
    + destruct (beqb k' k) eqn:E; [apply beqb_eq in E; contradiction|reflexivity].
    + destruct (beqb k' x); [reflexivity|exact IH].
Qed.
Lemma put_new {A} k (v : A) m : get k m = None -> put k v m = m ++ [(k, v)].
Proof. induction m as [|[x w] m IH]; cbn; [reflexivity|]. destruct (beqb k x); [discriminate|]. intros H. now rewrite IH. Qed.
Lemma get_in {A} k (v : A) m : get k m = Some v -> In (k, v) m.
Proof. induction m as [|[x w] m IH]; cbn; [discriminate|]. destruct (beqb k x) eqn:E; [apply beqb_eq in E; subst; intros [= ->]; now left|right; auto]. Qed.
Lemma in_put {A} k (v : A) m e : In e (put k v m) -> e = (k, v) \/ In e m.
Proof. induction m as [|[x w] m IH]; cbn; [intros [<-|[]]; now left|]. destruct (beqb k x); cbn; intros [<-|H]; auto. destruct (IH H); auto. Qed.
Lemma length_upd {B} n (u : B -> B) l : length (upd n u l) = length l.
Proof. revert n; induction l as [|x l IH]; intros [|n]; cbn; auto. Qed.
Lemma nth_upd_same {B} n (u : B -> B) l x : nth_error l n = Some x -> nth_error (upd n u l) n = Some (u x).
Proof. revert n; induction l as [|y l IH]; intros [|n]; cbn; try discriminate; [now intros [= ->]|apply IH]. Qed.
Lemma nth_upd_other {B} n k (u : B -> B) l : k <> n -> nth_error (upd n u l) k = nth_error l k.
Proof. revert n k; induction l as [|y l IH]; intros [|n] [|k] N; cbn; try reflexivity; [congruence|apply IH; congruence]. Qed.
Lemma in_upd {B} n (u : B -> B) l y : In y (upd n u l) -> In y l \/ exists x, nth_error l n = Some x /\ y = u x.
Proof.
  revert n; induction l as [|z l IH]; intros [|n]; cbn; try tauto.
  - intros [<-|H]; [right; eauto|auto].
  - intros [<-|H]; [auto|]. destruct (IH n H) as [?|(x & E & ->)]; eauto.
Qed.

Section Inv.
  Variable tid : list item -> bytes.
  Definition is_tname (s : bytes) : Prop := exists id nm, s = tname id nm.
  Definition name_ok (m : fonts) (r : res) (own : bool) (n : name) : Prop :=
    match n with
    | Fn id => id = [] \/ In id (map snd m)
    | Im id => exists s p, get s (r_imgs r) = Some (p, id) /\ ~ is_tname s
    | Tp id => exists t, get id (r_tpls r) = Some t
    | Gs i => 1 <= i <= Z.of_nat (length (r_blends r))
    | Sh i => 1 <= i <= r_grads r
    | Oc i => 0 <= i < r_layers r
    | Cs i => own = true -> In i (map snd (r_spots r))
    end.
  Definition item_ok m r own (it : item) : Prop := match it with Other _ => True | Named n => name_ok m r own n end.
  Definition cols_ok m r own (c : cols) : Prop := Forall (item_ok m r own) (ink (c_draw c)) /\ Forall (item_ok m r own) (ink (c_fill c)) /\ Forall (item_ok m r own) (ink (c_text c)).
  Record res_ok (r : res) : Prop := {
    ro_key : forall k t, In (k, t) (r_tpls r) -> k = tid (tm_content t);
    ro_grads : 0 <= r_grads r;
    ro_layers : 0 <= r_layers r }.
  Record inv (m : fonts) (d : nd) : Prop := {
    i_pages : forall p, In p (k_pages (d_ct d)) -> Forall (item_ok m (d_res d) (d_own d)) p;
    i_cols : cols_ok m (d_res d) (d_own d) (d_cols d);
    i_saved : forall x, In x (d_saved d) -> cols_ok m (d_res d) (d_own d) (snd x);
    i_cur : name_ok m (d_res d) (d_own d) (Fn (d_cur d));
    i_res : res_ok (d_res d) }.
  (** what no call changes *)
  Definition frame (d d' : nd) : Prop := d_fm d' = d_fm d /\ d_own d' = d_own d /\ d_ended d' = d_ended d.
  Lemma frame_refl d : frame d d. Proof. repeat split. Qed.
  Lemma frame_trans a b c : frame a b -> frame b c -> frame a c.
  Proof. unfold frame. intuition congruence. Qed.
  Definition fonts_grow (m m' : fonts) : Prop := incl (map snd m) (map snd m').
  Definition good (x y : fonts * nd) : Prop := inv (fst y) (snd y) /\ fonts_grow (fst x) (fst y) /\ frame (snd x) (snd y).

  Lemma cols_mono m r own m' r' c : (forall it, item_ok m r own it -> item_ok m' r' own it) -> cols_ok m r own c -> cols_ok m' r' own c.
  Proof. intros H (A & B & C). repeat split; eapply Forall_impl; eauto. Qed.
  Lemma inv_mono m m' r' d : (forall it, item_ok m (d_res d) (d_own d) it -> item_ok m' r' (d_own d) it) -> res_ok r' -> inv m d -> inv m' (st_res r' d).
  Proof.
    intros H R [A B C D _]. split; cbn.
    - intros p Hp. eapply Forall_impl; [exact H|exact (A p Hp)].
    - eapply cols_mono; eauto.
    - intros x Hx. eapply cols_mono; eauto.
    - apply (H (Named (Fn (d_cur d)))). exact D.
    - exact R.
  Qed.
  Lemma fonts_item m m' r own it : fonts_grow m m' -> item_ok m r own it -> item_ok m' r own it.
  Proof. intros H. destruct it as [b|[]]; cbn; auto. intros [?|?]; [now left|right; now apply H]. Qed.
  Lemma st_res_same d : st_res (d_res d) d = d. Proof. now destruct d. Qed.
  Lemma inv_fonts m m' d : fonts_grow m m' -> inv m d -> inv m' d.
  Proof. intros H I. rewrite <- (st_res_same d). apply (inv_mono m); [intros it; now apply fonts_item|apply I|exact I]. Qed.

  Lemma emit_res l d : d_res (emit l d) = d_res d /\ d_own (emit l d) = d_own d /\ d_cols (emit l d) = d_cols d /\ d_saved (emit l d) = d_saved d /\ d_cur (emit l d) = d_cur d /\ d_key (emit l d) = d_key d /\ d_err (emit l d) = d_err d /\ frame d (emit l d).
  Proof. unfold emit. destruct (Nat.eqb _ _); cbn; repeat split. Qed.
  Lemma emit_inv m l d : inv m d -> Forall (item_ok m (d_res d) (d_own d)) l -> inv m (emit l d).
  Proof.
    intros I F. unfold emit. destruct (Nat.eqb _ _); [exact I|]. destruct I as [A B C D E]. split; cbn; auto.
    intros p Hp. destruct (in_upd _ _ _ _ Hp) as [H|(x & H & ->)]; [now apply A|]. apply Forall_app. split; [apply A; eapply nth_error_In, H|exact F].
  Qed.

  Lemma put_fonts k v (m : fonts) : get k m = None -> fonts_grow m (put k v m) /\ In v (map snd (put k v m)).
  Proof.
    intros H. rewrite (put_new k v m H). unfold fonts_grow. rewrite map_app. split; [apply incl_appl, incl_refl|apply in_or_app; right; now left].
  Qed.
  Lemma st_font_inv m k i d : inv m d -> (i = [] \/ In i (map snd m)) -> inv m (st_font k i d).
  Proof. intros [A B C D E] H. split; cbn; auto. Qed.
  Lemma set_font_good key core x : inv (fst x) (snd x) -> good x (set_font key core x).
  Proof.
    destruct x as [m d]. intros I. cbn in I. unfold set_font, good.
    assert (R : fonts_grow m m) by apply incl_refl.
    assert (S : forall k i m', fonts_grow m m' -> In i (map snd m') -> inv m' (emit [Named (Fn i)] (st_font k i d)) /\ fonts_grow m m' /\ frame d (emit [Named (Fn i)] (st_font k i d))).
    { intros k i m' G Hi. split; [|split; [exact G|]].
      - apply emit_inv; [apply st_font_inv; [exact (inv_fonts m m' d G I)|now right]|constructor; [cbn; now right|constructor]].
      - exact (proj2 (proj2 (proj2 (proj2 (proj2 (proj2 (proj2 (emit_res [Named (Fn i)] (st_font k i d)))))))) ). }
    destruct (d_err d); [cbn [fst snd]; split; [exact I|]; split; [exact R|apply frame_refl]|].
    destruct (get key m) as [id|] eqn:E.
    { cbn [fst snd]. apply S; [exact R|]. apply get_in in E. apply (in_map snd) in E. exact E. }
    destruct core as [[ck cid]|].
    - destruct (get ck m) as [id|] eqn:E2.
      + cbn [fst snd]. apply S; [exact R|]. apply get_in in E2. apply (in_map snd) in E2. exact E2.
      + destruct (put_fonts ck cid m E2) as [G Hi]. cbn [fst snd]. now apply S.
    - cbn [fst snd]. split; [|split; [exact R|repeat split]]. destruct I as [A B C D F]. split; cbn; auto.
  Qed.

  Lemma good_trans x y z : good x y -> good y z -> good x z.
  Proof. intros (A & B & C) (A' & B' & C'). split; [exact A'|]. split; [unfold fonts_grow in *; eapply incl_tran; eauto|eapply frame_trans; eauto]. Qed.
  Lemma set_font_res key core x : d_res (snd (set_font key core x)) = d_res (snd x) /\ d_own (snd (set_font key core x)) = d_own (snd x).
  Proof.
    destruct x as [m d]. unfold set_font. destruct (d_err d); [split; reflexivity|].
    destruct (get key m); [cbn [snd]; split; apply (emit_res _ (st_font _ _ d))|].
    destruct core as [[ck cid]|]; [|split; reflexivity]. destruct (get ck m); cbn [snd]; split; apply (emit_res _ (st_font _ _ d)).
  Qed.
  Definition maybe_font (key : bytes) (x : fonts * nd) : fonts * nd := match key with [] => x | _ => set_font key None x end.
  Lemma maybe_font_good key x : inv (fst x) (snd x) -> good x (maybe_font key x).
  Proof. intros I. unfold maybe_font. destruct key; [|now apply set_font_good]. split; [exact I|]. split; [apply incl_refl|apply frame_refl]. Qed.
  Lemma maybe_font_res key x : d_res (snd (maybe_font key x)) = d_res (snd x) /\ d_own (snd (maybe_font key x)) = d_own (snd x).
  Proof. unfold maybe_font. destruct key; [split; reflexivity|apply set_font_res]. Qed.
  Lemma maybe_emit_inv m (b : bool) l d : inv m d -> Forall (item_ok m (d_res d) (d_own d)) l -> inv m (if b then d else emit l d) /\ frame d (if b then d else emit l d) /\ d_res (if b then d else emit l d) = d_res d /\ d_own (if b then d else emit l d) = d_own d /\ d_cols (if b then d else emit l d) = d_cols d.
  Proof.
    intros I F. destruct b; [split; [exact I|]; split; [apply frame_refl|repeat split]|].
    split; [now apply emit_inv|]. split; [apply (emit_res l d)|]. split; [apply (emit_res l d)|split; apply (emit_res l d)].
  Qed.
  Lemma st_cols_inv m c d : inv m d -> cols_ok m (d_res d) (d_own d) c -> inv m (st_cols c d).
  Proof. intros [A B C D E] H. split; cbn; auto. Qed.

  (** the common end of [start] and [restore] *)
  Lemma finish_page key c (b1 : nd -> bool) (b2 : nd -> bool) x : inv (fst x) (snd x) -> cols_ok (fst x) (d_res (snd x)) (d_own (snd x)) c ->
    good x (let (m, d) := maybe_font key x in if d_err d then (m, d) else
      let d := if b1 d then d else emit (ink (c_draw c)) d in let d := if b2 d then d else emit (ink (c_fill c)) d in (m, st_cols c d)).
  Proof.
    intros I C. pose proof (maybe_font_good key x I) as G. destruct (maybe_font_res key x) as [E1 E2].
    destruct (maybe_font key x) as [m d]. cbn [snd] in E1, E2. destruct (d_err d); [exact G|].
    destruct G as (G1 & G2 & G3). cbn [fst snd] in G1, G2, G3.
    assert (C' : cols_ok m (d_res d) (d_own d) c) by (rewrite E1, E2; eapply cols_mono; [|exact C]; intros it; now apply fonts_item).
    destruct (maybe_emit_inv m (b1 d) (ink (c_draw c)) d G1) as (H1 & H2 & H3 & H4 & _); [apply C'|].
    set (d1 := if b1 d then d else _) in *. cbv zeta.
    destruct (maybe_emit_inv m (b2 d1) (ink (c_fill c)) d1 H1) as (K1 & K2 & K3 & K4 & _); [rewrite H3, H4; apply C'|].
    set (d2 := if b2 d1 then d1 else _) in *. unfold good. cbn [fst snd]. split; [|split; [exact G2|]].
    - apply st_cols_inv; [exact K1|]. rewrite K3, K4, H3, H4. exact C'.
    - eapply frame_trans; [exact G3|]. eapply frame_trans; [exact H2|]. eapply frame_trans; [exact K2|]. repeat split.
  Qed.
  Lemma start_good x : inv (fst x) (snd x) -> good x (start x).
  Proof.
    destruct x as [m d]. intros I. unfold start. cbn [fst snd] in I. destruct (d_err d); [split; [exact I|]; split; [apply incl_refl|apply frame_refl]|].
    destruct (d_saved d) as [|[key c] rest] eqn:Es; [split; [exact I|]; split; [apply incl_refl|apply frame_refl]|].
    set (d1 := st_font [] (d_cur d) _). set (d2 := emit _ d1).
    assert (I1 : inv m d1). { destruct I as [A B C D E]. split; cbn; auto. intros p Hp. apply in_app_or in Hp as [H|[<-|[]]]; [now apply A|constructor]. }
    assert (I2 : inv m d2) by (apply emit_inv; [exact I1|constructor; [exact Logic.I|constructor]]).
    destruct (emit_res [Other (bs "J j w")] d1) as (R1 & R2 & _ & _ & _ & _ & _ & Fr).
    assert (C : cols_ok m (d_res d2) (d_own d2) c). { unfold d2. rewrite R1, R2. change (cols_ok m (d_res d) (d_own d) (snd (key, c))). apply I. rewrite Es. now left. }
    pose proof (finish_page key c (fun _ => color_eqb (c_draw c) black_G) (fun _ => color_eqb (c_fill c) black_g) (m, d2) I2 C) as G.
    eapply good_trans; [|exact G]. split; [exact I2|]. split; [apply incl_refl|]. cbn [snd]. eapply frame_trans; [|exact Fr]. repeat split.
  Qed.
  Lemma restore_good x : inv (fst x) (snd x) -> good x (restore x).
  Proof.
    destruct x as [m d]. intros I. unfold restore. cbn [fst snd] in I.
    destruct (d_saved d) as [|[key c] rest] eqn:Es; [split; [exact I|]; split; [apply incl_refl|apply frame_refl]|].
    set (d1 := st_saved rest d).
    assert (I1 : inv m d1). { destruct I as [A B C D E]. split; cbn; auto. intros x Hx. apply C. rewrite Es. now right. }
    assert (C : cols_ok m (d_res d1) (d_own d1) c). { change (cols_ok m (d_res d) (d_own d) (snd (key, c))). apply I. rewrite Es. now left. }
    pose proof (finish_page key c (fun d => color_eqb (c_draw (d_cols d)) (c_draw c)) (fun d => color_eqb (c_fill (d_cols d)) (c_fill c)) (m, d1) I1 C) as G.
    eapply good_trans; [|exact G]. split; [exact I1|]. split; [apply incl_refl|]. repeat split.
  Qed.
  Lemma save_inv m d : inv m d -> inv m (save d) /\ frame d (save d).
  Proof.
    intros I. unfold save. destruct (d_err d); [split; [exact I|apply frame_refl]|]. split; [|repeat split].
    destruct I as [A B C D E]. split; cbn; auto. intros x [<-|Hx]; [exact B|now apply C].
  Qed.
  Lemma add_page_good x : inv (fst x) (snd x) -> good x (add_page x).
  Proof.
    intros I. unfold add_page. destruct (save_inv _ _ I) as [I1 F1]. eapply good_trans; [|apply restore_good].
    - eapply good_trans; [|apply start_good; exact I1]. split; [exact I1|]. split; [apply incl_refl|exact F1].
    - apply start_good. exact I1.
  Qed.

  (** the table of templates *)
  Definition keyed (m : list (bytes * tm)) : Prop := forall k t, In (k, t) m -> k = tid (tm_content t).
  Lemma put_keyed t m : keyed m -> keyed (put (tid (tm_content t)) t m).
  Proof. intros H k s Hi. apply in_put in Hi as [[= -> ->]|Hi]; [reflexivity|now apply H]. Qed.
  Lemma put_has {A} k k' (v : A) m : (exists t, get k' m = Some t) -> exists t, get k' (put k v m) = Some t.
  Proof. intros (t & H). destruct (beqb k' k) eqn:E; [apply beqb_eq in E; subst; rewrite get_put_same; eauto|]. rewrite get_put_other; [eauto|]. intros ->. now rewrite beqb_refl in E. Qed.
  Lemma puts_keyed l m : keyed m -> keyed (fold_left (fun m s => put (tid (tm_content s)) s m) l m) /\ (forall k, (exists t, get k m = Some t) -> exists t, get k (fold_left (fun m s => put (tid (tm_content s)) s m) l m) = Some t).
  Proof.
    revert m; induction l as [|s l IH]; intros m H; cbn [fold_left]; [auto|].
    destruct (IH _ (put_keyed s m H)) as (A & B). split; [exact A|]. intros k Hk. apply B. now apply put_has.
  Qed.
  Lemma puts_in l m k t : In (k, t) (fold_left (fun m s => put (tid (tm_content s)) s m) l m) -> In (k, t) m \/ In t l.
  Proof.
    revert m; induction l as [|s l IH]; intros m Hi; cbn [fold_left] in Hi; [auto|].
    destruct (IH _ Hi) as [X|X]; [|right; now right]. apply in_put in X as [[= -> ->]|X]; [right; now left|now left].
  Qed.
  Definition add_imgs (id : bytes) (old : list (bytes * img)) (l m : list (bytes * img)) : list (bytes * img) :=
    fold_left (fun m e => if existsb (fun x => beqb (snd (snd x)) (snd (snd e))) old then m else put (tname id (fst e)) (snd e) m) l m.
  Lemma add_imgs_get id old l m s : ~ is_tname s -> get s (add_imgs id old l m) = get s m.
  Proof.
    intros N. unfold add_imgs. revert m; induction l as [|e l IH]; intros m; cbn [fold_left]; [reflexivity|]. rewrite IH. destruct (existsb _ _); [reflexivity|].
    apply get_put_other. intros ->. apply N. now exists id, (fst e).
  Qed.
  Definition used (t : tm) (d : nd) : res :=
    {| r_imgs := add_imgs (tid (tm_content t)) (r_imgs (d_res d)) (tm_imgs t) (r_imgs (d_res d));
       r_tpls := fold_left (fun m s => put (tid (tm_content s)) s m) (tm_subs t) (put (tid (tm_content t)) t (r_tpls (d_res d)));
       r_blends := r_blends (d_res d); r_grads := r_grads (d_res d); r_layers := r_layers (d_res d); r_spots := r_spots (d_res d) |}.
  Lemma use_eq t d : Nat.eqb (k_page (d_ct d)) 0 = false -> use tid t d = emit [Other (bs "cm"); Named (Tp (tid (tm_content t)))] (st_res (used t d) d).
  Proof. intros H. unfold use. rewrite H. reflexivity. Qed.
  Lemma st_err_inv m d : inv m d -> inv m (st_err d).
  Proof. intros [A B C D E]. split; cbn; auto. Qed.
  Lemma st_layer_inv m i d : inv m d -> inv m (st_layer i d).
  Proof. intros [A B C D E]. split; cbn; auto. Qed.
  Lemma use_good m t d : inv m d -> inv m (use tid t d) /\ frame d (use tid t d).
  Proof.
    intros I. destruct (Nat.eqb (k_page (d_ct d)) 0) eqn:E0.
    { unfold use. rewrite E0. split; [now apply st_err_inv|repeat split]. }
    rewrite (use_eq t d E0). destruct (puts_keyed (tm_subs t) (put (tid (tm_content t)) t (r_tpls (d_res d)))) as (K1 & K2); [apply put_keyed; exact (ro_key _ (i_res _ _ I))|].
    assert (R : res_ok (used t d)) by (split; [exact K1|apply (i_res _ _ I)|apply (i_res _ _ I)]).
    split; [|eapply frame_trans; [|apply emit_res]; repeat split].
    apply emit_inv.
    - apply (inv_mono m); [|exact R|exact I]. intros [b|n]; [auto|]. cbn [item_ok]. destruct n; cbn [name_ok]; auto.
      + intros (s & p & H1 & H2). exists s, p. split; [|exact H2]. cbn [r_imgs used]. now rewrite add_imgs_get.
      + intros H. cbn [r_tpls used]. apply K2. now apply put_has.
    - constructor; [exact Logic.I|]. constructor; [|constructor]. cbn [item_ok name_ok]. apply K2. exists t. apply get_put_same.
  Qed.

  Definition plain_act (a : act) : Prop := match a with Image s _ => ~ is_tname s | _ => True end.
  Lemma index_of_bound k l i j : index_of k l i = Some j -> i <= j < i + Z.of_nat (length l).
  Proof. revert i; induction l as [|x l IH]; intros i; cbn [index_of length]; [discriminate|]. destruct (beqb k x); [intros [= <-]; lia|]. intros H. apply IH in H. lia. Qed.
  Lemma end_layer_inv m d : inv m d -> inv m (end_layer d) /\ frame d (end_layer d) /\ d_res (end_layer d) = d_res d /\ d_own (end_layer d) = d_own d.
  Proof.
    intros I. unfold end_layer. destruct (0 <=? d_layer d); [|split; [exact I|]; split; [apply frame_refl|split; reflexivity]].
    split; [apply st_layer_inv, emit_inv; [exact I|constructor; [exact Logic.I|constructor]]|].
    destruct (emit_res [Other (bs "EMC")] d) as (R1 & R2 & _ & _ & _ & _ & _ & Fr). split; [exact Fr|]. split; [exact R1|exact R2].
  Qed.

  Lemma act_good tms p a x : plain_act a -> inv (fst x) (snd x) -> good x (act_step tid tms p a x).
  Proof.
    destruct x as [m d]. intros Pa I. cbn [fst snd] in I.
    assert (Same : forall d', inv m d' -> frame d d' -> good (m, d) (m, d')) by (intros d' H1 H2; split; [exact H1|split; [apply incl_refl|exact H2]]).
    assert (Err : good (m, d) (m, st_err d)) by (apply Same; [now apply st_err_inv|repeat split]).
    assert (Id : good (m, d) (m, d)) by (apply Same; [exact I|apply frame_refl]).
    assert (Em : forall l d', inv m d' -> frame d d' -> Forall (item_ok m (d_res d') (d_own d')) l -> good (m, d) (m, emit l d')).
    { intros l d' H1 H2 H3. apply Same; [now apply emit_inv|]. eapply frame_trans; [exact H2|]. apply emit_res. }
    pose proof (i_cols _ _ I) as (Cd & Cf & Ct).
    destruct a; cbn [act_step plain_act] in *.
    - destruct (save_inv m d I). now apply Same.
    - now apply (start_good (m, d)).
    - now apply (restore_good (m, d)).
    - destruct (_ && _); [|exact Id]. apply Same; [|repeat split]. destruct I as [A B C D E]. split; cbn; auto.
    - apply Em; [exact I|apply frame_refl|]. constructor; [exact Logic.I|constructor].
    - apply Em; [exact I|apply frame_refl|]. apply Forall_app. split; [destruct (c_flag _); [exact Ct|constructor]|constructor; [exact Logic.I|constructor]].
    - destruct (d_err d); [exact Id|]. destruct (get key m) eqn:E; [exact Id|]. destruct (put_fonts key id m E) as [G _].
      split; [exact (inv_fonts m _ d G I)|]. split; [exact G|apply frame_refl].
    - now apply (set_font_good key core (m, d)).
    - apply Em; [exact I|apply frame_refl|]. constructor; [apply I|constructor].
    - destruct (d_err d); [exact Id|]. destruct (index_of key (r_blends (d_res d)) 1) as [i|] eqn:E.
      + apply Em; [exact I|apply frame_refl|]. constructor; [|constructor]. apply index_of_bound in E. cbn. lia.
      + apply Em; [|repeat split|].
        * apply (inv_mono m); [|split; [apply (i_res _ _ I)|apply (i_res _ _ I)|apply (i_res _ _ I)]|exact I]. intros [b|n]; [auto|]. destruct n; cbn; auto. rewrite app_length. cbn. lia.
        * constructor; [|constructor]. cbn. rewrite app_length. cbn. lia.
    - pose proof (ro_grads _ (i_res _ _ I)) as Hg. apply Em; [|repeat split|].
      + apply (inv_mono m); [|split; [apply (i_res _ _ I)|cbn; lia|apply (i_res _ _ I)]|exact I]. intros [b|n]; [auto|]. destruct n; cbn; auto. lia.
      + constructor; [|constructor]. cbn. lia.
    - pose proof (ro_layers _ (i_res _ _ I)) as Hg. apply Same; [|repeat split].
      apply (inv_mono m); [|split; [apply (i_res _ _ I)|apply (i_res _ _ I)|cbn; lia]|exact I]. intros [b|n]; [auto|]. destruct n; cbn; auto. lia.
    - destruct (end_layer_inv m d I) as (H1 & H2 & H3 & H4). destruct ((0 <=? i) && (i <? r_layers (d_res d))) eqn:E; [|now apply Same].
      apply andb_true_iff in E as [E1 E2]. apply Z.leb_le in E1. apply Z.ltb_lt in E2. apply Same.
      + apply st_layer_inv, emit_inv; [exact H1|]. constructor; [|constructor]. cbn. rewrite H3. lia.
      + eapply frame_trans; [exact H2|]. eapply frame_trans; [apply (emit_res [Named (Oc i)])|]. repeat split.
    - destruct (end_layer_inv m d I) as (H1 & H2 & _). now apply Same.
    - destruct (d_err d); [exact Id|]. destruct (get s (r_spots (d_res d))) eqn:E; [exact Err|]. apply Same; [|repeat split].
      apply (inv_mono m); [|split; [apply (i_res _ _ I)|apply (i_res _ _ I)|apply (i_res _ _ I)]|exact I]. intros [b|n]; [auto|]. destruct n; cbn; auto. rewrite (put_new _ _ _ E), map_app. intros H Ho. apply in_or_app. left. auto.
    - destruct (d_err d); [exact Id|]. destruct (get s (r_spots (d_res d))) as [i|] eqn:E; [|exact Err].
      assert (X : Forall (item_ok m (d_res d) (d_own d)) (ink (Spot i tint))). { constructor; [|constructor; [exact Logic.I|constructor]]. cbn. intros _. apply get_in in E. apply (in_map snd) in E. exact E. }
      apply Em; [|repeat split|exact X]. apply st_cols_inv; [exact I|]. now repeat split.
    - destruct (d_err d); [exact Id|]. destruct (get s (r_spots (d_res d))) as [i|] eqn:E; [|exact Err].
      assert (X : Forall (item_ok m (d_res d) (d_own d)) (ink (Spot i tint))). { constructor; [|constructor; [exact Logic.I|constructor]]. cbn. intros _. apply get_in in E. apply (in_map snd) in E. exact E. }
      apply Em; [|repeat split|exact X]. apply st_cols_inv; [exact I|]. now repeat split.
    - destruct (d_err d); [exact Id|]. destruct (get s (r_spots (d_res d))) as [i|] eqn:E; [|exact Err].
      assert (X : Forall (item_ok m (d_res d) (d_own d)) (ink (Spot i tint))). { constructor; [|constructor; [exact Logic.I|constructor]]. cbn. intros _. apply get_in in E. apply (in_map snd) in E. exact E. }
      apply Same; [|repeat split]. apply st_cols_inv; [exact I|]. now repeat split.
    - apply Em; [|repeat split|constructor; [exact Logic.I|constructor]]. apply st_cols_inv; [exact I|]. repeat split; auto. constructor; [exact Logic.I|constructor].
    - apply Em; [|repeat split|constructor; [exact Logic.I|constructor]]. apply st_cols_inv; [exact I|]. repeat split; auto. constructor; [exact Logic.I|constructor].
    - apply Same; [|repeat split]. apply st_cols_inv; [exact I|]. repeat split; auto. constructor; [exact Logic.I|constructor].
    - destruct (d_err d); [exact Id|]. destruct (get s (r_imgs (d_res d))) as [[q i]|] eqn:E.
      + apply Em; [exact I|apply frame_refl|]. constructor; [|constructor]. cbn. eauto.
      + apply Em; [|repeat split|].
        * apply (inv_mono m); [|split; [apply (i_res _ _ I)|apply (i_res _ _ I)|apply (i_res _ _ I)]|exact I]. intros [b|n]; [auto|]. destruct n; cbn; auto. intros (s' & p' & H1 & H2). exists s', p'.
          split; [|exact H2]. rewrite get_put_other; [exact H1|]. intros ->. congruence.
        * constructor; [|constructor]. cbn. exists s, p. split; [apply get_put_same|exact Pa].
    - destruct (nth_error tms t) as [t0|]; [|exact Err]. destruct (_ && _); [|exact Id]. destruct (use_good m (on_page page t0) d I). now apply Same.
  Qed.

  (** ** The heap *)
  Definition titem_ok (m : fonts) (t : tm) (it : item) : Prop :=
    match it with
    | Named (Fn id) => id = [] \/ In id (map snd m)
    | Named (Im id) => exists e, In e (tm_imgs t) /\ snd (snd e) = id
    | Named (Tp id) => exists s, In s (tm_subs t) /\ tid (tm_content s) = id
    | _ => True
    end.
  Definition page_of (h : heap) (s : tm) : Prop := exists t0 k, In t0 (h_tms h) /\ s = on_page k t0.
  Definition tinv (h : heap) (t : tm) : Prop :=
    (exists m, nth_error (h_fonts h) (tm_fm t) = Some m /\ forall p, In p (tm_pages t) -> Forall (titem_ok m t) p) /\
    forall s, In s (tm_subs t) -> page_of h s.
  Definition dinv (h : heap) (d : nd) : Prop :=
    (exists m, nth_error (h_fonts h) (d_fm d) = Some m /\ inv m d) /\ forall k s, In (k, s) (r_tpls (d_res d)) -> page_of h s.
  Definition hinv (h : heap) : Prop := (forall d, In d (h_docs h) -> dinv h d) /\ forall t, In t (h_tms h) -> tinv h t.
  (** maps of fonts grow, templates stay *)
  Definition hgrow (h h' : heap) : Prop :=
    (forall i m, nth_error (h_fonts h) i = Some m -> exists m', nth_error (h_fonts h') i = Some m' /\ fonts_grow m m') /\ incl (h_tms h) (h_tms h').
  Lemma page_grow h h' s : hgrow h h' -> page_of h s -> page_of h' s.
  Proof. intros [_ G] (t0 & k & H & E). exists t0, k. split; [now apply G|exact E]. Qed.
  Lemma tinv_grow h h' t : hgrow h h' -> tinv h t -> tinv h' t.
  Proof.
    intros G ((m & E & H) & S). split; [|intros s Hs; eapply page_grow; eauto]. destruct (proj1 G _ _ E) as (m' & E' & F). exists m'. split; [exact E'|].
    intros p Hp. eapply Forall_impl; [|exact (H p Hp)]. intros [b|[]]; cbn; auto. intros [?|?]; [now left|right; now apply F].
  Qed.
  Lemma dinv_grow h h' d : hgrow h h' -> dinv h d -> dinv h' d.
  Proof.
    intros G ((m & E & H) & S). split; [|intros k s Hs; eapply page_grow; eauto]. destruct (proj1 G _ _ E) as (m' & E' & F). exists m'. split; [exact E'|]. now apply (inv_fonts m).
  Qed.
  Lemma on_page_on k k' t : on_page k (on_page k' t) = on_page k t. Proof. now destruct t. Qed.

  Definition plain_cmd (c : cmd) : Prop := match c with Do _ a => plain_act a | _ => True end.
  Lemma fresh_inv m c key cur imgs fm own : cols_ok m {| r_imgs := imgs; r_tpls := []; r_blends := []; r_grads := 0; r_layers := 0; r_spots := [] |} own c -> (cur = [] \/ In cur (map snd m)) -> inv m (fresh c key cur imgs fm own).
  Proof.
    intros C Hc. split; cbn; auto.
    - intros p [<-|[]]. constructor.
    - intros x [].
    - split; cbn; try lia; intros k t [].
  Qed.
  Lemma start_res x : d_res (snd (start x)) = d_res (snd x).
  Proof.
    destruct x as [m d]. unfold start. destruct (d_err d); [reflexivity|]. destruct (d_saved d) as [|[key c] rest]; [reflexivity|].
    set (d1 := emit _ _). assert (E : d_res d1 = d_res d) by (unfold d1; rewrite (proj1 (emit_res _ _)); reflexivity). clearbody d1. cbn zeta.
    pose proof (maybe_font_res key (m, d1)) as [R _]. unfold maybe_font in R. cbn [snd] in R |- *.
    destruct (match key with [] => (m, d1) | _ :: _ => set_font key None (m, d1) end) as [m' d2]. cbn [snd] in R. destruct (d_err d2); cbn [snd]; [congruence|].
    destruct (color_eqb (c_draw c) black_G); destruct (color_eqb (c_fill c) black_g); cbn [st_cols d_res]; rewrite ?(proj1 (emit_res _ _)); congruence.
  Qed.
  Lemma restore_res x : d_res (snd (restore x)) = d_res (snd x).
  Proof.
    destruct x as [m d]. unfold restore. destruct (d_saved d) as [|[key c] rest]; [reflexivity|].
    set (d1 := st_saved rest d). assert (E : d_res d1 = d_res d) by reflexivity. clearbody d1. cbn zeta.
    pose proof (maybe_font_res key (m, d1)) as [R _]. unfold maybe_font in R. cbn [snd] in R |- *.
    destruct (match key with [] => (m, d1) | _ :: _ => set_font key None (m, d1) end) as [m' d2]. cbn [snd] in R. destruct (d_err d2); cbn [snd]; [congruence|].
    destruct (color_eqb _ _); cbn [st_cols d_res]; destruct (color_eqb _ _); rewrite ?(proj1 (emit_res _ _)); congruence.
  Qed.
  Lemma add_page_res x : d_res (snd (add_page x)) = d_res (snd x).
  Proof. unfold add_page. rewrite restore_res, start_res. cbn [snd]. unfold save. now destruct (d_err (snd x)). Qed.
  (** templates come from the heap *)
  Lemma act_tpls h p a x : (forall t, In t (h_tms h) -> tinv h t) -> (forall k s, In (k, s) (r_tpls (d_res (snd x))) -> page_of h s) ->
    forall k s, In (k, s) (r_tpls (d_res (snd (act_step tid (h_tms h) p a x)))) -> page_of h s.
  Proof.
    destruct x as [m d]. intros HT H. cbn [snd] in H.
    assert (El : d_res (end_layer d) = d_res d) by (unfold end_layer; destruct (0 <=? d_layer d); [cbn; apply (emit_res _ d)|reflexivity]).
    destruct a; cbn [act_step].
    all: try (rewrite (proj1 (emit_res _ _))); cbn [snd]; try exact H.
    - unfold save. destruct (d_err d); exact H.
    - rewrite start_res. exact H.
    - rewrite restore_res. exact H.
    - destruct (_ && _); exact H.
    - rewrite (proj1 (emit_res _ _)). exact H.
    - rewrite (proj1 (emit_res _ _)). exact H.
    - destruct (d_err d); [exact H|]. destruct (get key m); exact H.
    - rewrite (proj1 (set_font_res _ _ _)). exact H.
    - rewrite (proj1 (emit_res _ _)). exact H.
    - destruct (d_err d); [exact H|]. destruct (index_of _ _ _); rewrite (proj1 (emit_res _ _)); exact H.
    - rewrite (proj1 (emit_res _ _)). exact H.
    - destruct (_ && _); cbn; rewrite ?(proj1 (emit_res _ _)), El; exact H.
    - rewrite El. exact H.
    - destruct (d_err d); [exact H|]. destruct (get _ _); exact H.
    - destruct (d_err d); [exact H|]. destruct (get _ _); rewrite ?(proj1 (emit_res _ _)); exact H.
    - destruct (d_err d); [exact H|]. destruct (get _ _); rewrite ?(proj1 (emit_res _ _)); exact H.
    - destruct (d_err d); [exact H|]. destruct (get _ _); exact H.
    - rewrite (proj1 (emit_res _ _)). exact H.
    - rewrite (proj1 (emit_res _ _)). exact H.
    - destruct (d_err d); [exact H|]. destruct (get _ _) as [[? ?]|]; rewrite (proj1 (emit_res _ _)); exact H.
    - destruct (nth_error (h_tms h) t) as [t0|] eqn:Et; [|exact H]. destruct (_ && _); [|exact H].
      apply nth_error_In in Et. destruct (Nat.eqb (k_page (d_ct d)) 0) eqn:E0; [unfold use; rewrite E0; exact H|].
      rewrite (use_eq _ _ E0), (proj1 (emit_res _ _)). cbn [st_res d_res used r_tpls].
      intros k s Hs. apply puts_in in Hs as [Hs|Hs].
      + apply in_put in Hs as [[= -> ->]|Hs]; [now exists t0, page|now apply (H k)].
      + apply (proj2 (HT t0 Et)). now destruct t0.
  Qed.

  Lemma upd_fonts_grow (l : list fonts) i m m' : nth_error l i = Some m -> fonts_grow m m' -> forall j x, nth_error l j = Some x -> exists x', nth_error (upd i (fun _ => m') l) j = Some x' /\ fonts_grow x x'.
  Proof.
    intros E G j x Ej. destruct (Nat.eq_dec j i) as [->|N].
    - rewrite (nth_upd_same _ _ _ _ E). exists m'. split; [reflexivity|]. replace x with m by congruence. exact G.
    - rewrite (nth_upd_other _ _ _ _ N). exists x. split; [exact Ej|apply incl_refl].
  Qed.
  Lemma step_inv c h : plain_cmd c -> hinv h -> hinv (step tid c h) /\ hgrow h (step tid c h).
  Proof.
    intros Pc [HD HT]. assert (Rf : hgrow h h) by (split; [intros i m E; exists m; split; [exact E|apply incl_refl]|apply incl_refl]).
    assert (App : forall (l : list fonts) x i m, nth_error l i = Some m -> exists m', nth_error (l ++ [x]) i = Some m' /\ fonts_grow m m').
    { intros l x i m E. exists m. split; [|apply incl_refl]. rewrite nth_error_app1; [exact E|]. apply nth_error_Some. congruence. }
    destruct c as [|i| |i a|i]; cbn [step].
    - set (h' := {| h_docs := _ |}). assert (G : hgrow h h') by (split; [intros i m E; cbn; now apply App|apply incl_refl]). split; [|exact G]. split.
      + intros d Hd. cbn in Hd. apply in_app_or in Hd as [Hd|[<-|[]]]; [exact (dinv_grow _ _ _ G (HD d Hd))|]. split; [|intros k s []]. exists [].
        split; [cbn; rewrite nth_error_app2, Nat.sub_diag by lia; reflexivity|]. apply fresh_inv; [|now left]. repeat split; constructor; try exact Logic.I; constructor.
      + intros t Ht. exact (tinv_grow _ _ _ G (HT t Ht)).
    - destruct (nth_error (h_docs h) i) as [f|] eqn:Ef; [|split; [split; assumption|exact Rf]].
      destruct (nth_error (h_fonts h) (d_fm f)) as [m|] eqn:Em; [|split; [split; assumption|exact Rf]].
      set (d0 := fresh _ _ _ _ _ _). pose proof (HD f (nth_error_In _ _ Ef)) as [(m0 & Em0 & If) _].
      assert (m0 = m) by congruence. subst m0.
      assert (I0 : inv m d0).
      { unfold d0. apply fresh_inv; [|apply If]. repeat split; cbn [c_draw c_fill c_text].
        all: match goal with |- Forall _ (ink ?c) => destruct c; cbn [ink]; repeat constructor; cbn; discriminate end. }
      pose proof (add_page_good (m, d0) I0) as (G1 & G2 & (F1 & F2 & F3)). pose proof (add_page_res (m, d0)) as Rs.
      destruct (add_page (m, d0)) as [m' t]. cbn [fst snd] in *.
      set (h' := {| h_docs := _ |}). assert (G : hgrow h h') by (split; [intros j x E; cbn; now apply (upd_fonts_grow _ _ m)|apply incl_refl]). split; [|exact G]. split.
      + intros d Hd. cbn in Hd. apply in_app_or in Hd as [Hd|[<-|[]]]; [exact (dinv_grow _ _ _ G (HD d Hd))|]. split; [|rewrite Rs; intros k s []]. exists m'.
        split; [|exact G1]. rewrite F1. cbn. now rewrite (nth_upd_same _ _ _ _ Em).
      + intros t0 Ht. exact (tinv_grow _ _ _ G (HT t0 Ht)).
    - set (d0 := fresh _ _ _ _ _ _).
      assert (I0 : inv [] d0) by (unfold d0; apply fresh_inv; [|now left]; repeat split; constructor; try exact Logic.I; constructor).
      pose proof (add_page_good ([], d0) I0) as (G1 & G2 & (F1 & F2 & F3)). pose proof (add_page_res ([], d0)) as Rs.
      destruct (add_page ([], d0)) as [m' t]. cbn [fst snd] in *.
      set (h' := {| h_docs := _ |}). assert (G : hgrow h h') by (split; [intros j x E; cbn; now apply App|apply incl_refl]). split; [|exact G]. split.
      + intros d Hd. cbn in Hd. apply in_app_or in Hd as [Hd|[<-|[]]]; [exact (dinv_grow _ _ _ G (HD d Hd))|]. split; [|rewrite Rs; intros k s []]. exists m'.
        split; [|exact G1]. rewrite F1. cbn. rewrite nth_error_app2, Nat.sub_diag by lia. reflexivity.
      + intros t0 Ht. exact (tinv_grow _ _ _ G (HT t0 Ht)).
    - destruct (nth_error (h_docs h) i) as [f|] eqn:Ef; [|split; [split; assumption|exact Rf]].
      destruct (nth_error (h_fonts h) (d_fm f)) as [m|] eqn:Em; [|split; [split; assumption|exact Rf]].
      destruct (d_ended f); [split; [split; assumption|exact Rf]|].
      pose proof (HD f (nth_error_In _ _ Ef)) as [(m0 & Em0 & If) Hp]. assert (m0 = m) by congruence. subst m0.
      pose proof (act_good (h_tms h) (h_ptr h) a (m, f) Pc If) as (G1 & G2 & (F1 & F2 & F3)). pose proof (act_tpls h (h_ptr h) a (m, f) HT Hp) as Ht.
      destruct (act_step tid (h_tms h) (h_ptr h) a (m, f)) as [m' f']. cbn [fst snd] in *.
      set (h' := {| h_docs := _ |}). assert (G : hgrow h h') by (split; [intros j x E; cbn; now apply (upd_fonts_grow _ _ m)|apply incl_refl]). split; [|exact G]. split.
      + intros d Hd. cbn in Hd. apply in_upd in Hd as [Hd|(x & _ & ->)]; [exact (dinv_grow _ _ _ G (HD d Hd))|]. split; [|intros k s Hs; eapply page_grow; [exact G|now apply (Ht k)]].
        exists m'. split; [|exact G1]. rewrite F1. cbn. now rewrite (nth_upd_same _ _ _ _ Em).
      + intros t0 Ht0. exact (tinv_grow _ _ _ G (HT t0 Ht0)).
    - destruct (nth_error (h_docs h) i) as [f|] eqn:Ef; [|split; [split; assumption|exact Rf]].
      destruct (d_ended f || d_own f); [split; [split; assumption|exact Rf]|].
      set (h' := {| h_docs := _ |}). assert (G : hgrow h h') by (split; [intros j x E; exists x; split; [exact E|apply incl_refl]|apply incl_appl, incl_refl]). split; [|exact G].
      pose proof (HD f (nth_error_In _ _ Ef)) as Df. split.
      + intros d Hd. cbn in Hd. apply in_upd in Hd as [Hd|(x & Ex & ->)]; [exact (dinv_grow _ _ _ G (HD d Hd))|].
        destruct (dinv_grow _ _ _ G (HD x (nth_error_In _ _ Ex))) as [(m & E & I) P]. split; [|exact P]. exists m. split; [exact E|]. destruct I as [A B C D F]. split; cbn; auto.
      + intros t Ht. cbn in Ht. apply in_app_or in Ht as [Ht|[<-|[]]]; [exact (tinv_grow _ _ _ G (HT t Ht))|].
        destruct (dinv_grow _ _ _ G Df) as [(m & E & I) P]. split.
        * exists m. split; [exact E|]. cbn [tm_pages]. intros p Hp. eapply Forall_impl; [|exact (i_pages _ _ I p Hp)].
          intros [b|[]]; cbn; auto.
          -- intros (s & q & H1 & _). apply get_in in H1. exists (s, (q, id)). split; [exact H1|reflexivity].
          -- intros (s & H1). apply get_in in H1. exists s. split; [apply in_map_iff; now exists (id, s)|]. symmetry. exact (ro_key _ (i_res _ _ I) _ _ H1).
        * cbn [tm_subs]. intros s Hs. apply in_map_iff in Hs as ([k s'] & <- & Hs). exact (P k s' Hs).
  Qed.
  Lemma hgrow_trans a b c : hgrow a b -> hgrow b c -> hgrow a c.
  Proof.
    intros [F1 T1] [F2 T2]. split; [|eapply incl_tran; eauto]. intros i m E. destruct (F1 i m E) as (m1 & E1 & G1). destruct (F2 i m1 E1) as (m2 & E2 & G2).
    exists m2. split; [exact E2|]. unfold fonts_grow in *. eapply incl_tran; eauto.
  Qed.
  Lemma run_inv l h : Forall plain_cmd l -> hinv h -> hinv (run tid l h) /\ hgrow h (run tid l h).
  Proof.
    revert h; induction l as [|c l IH]; intros h F I; cbn.
    - split; [exact I|]. split; [intros i m E; exists m; split; [exact E|apply incl_refl]|apply incl_refl].
    - inversion F; subst. destruct (step_inv c h H1 I) as [I1 G1]. destruct (IH _ H2 I1) as [I2 G2]. split; [exact I2|]. eapply hgrow_trans; eauto.
  Qed.
  Lemma empty_inv : hinv empty.
  Proof. split; intros ? []. Qed.
End Inv.
