From Coq Require Import String ZArith List Bool Lia.
From Verif Require Import Base GetModel.
Import ListNotations.
Open Scope Z_scope.

(** C87: what the caller sets is what he reads back. *)

(** ** Specification: the value given by the last call that sets it *)
Definition last_of {C A} (f : C -> option A) (d : A) (cs : list C) : A := fold_left (fun a c => match f c with Some x => x | None => a end) cs d.
Definition capped (hi v : Z) : Z := Z.max 0 (Z.min hi v).
(** a position given from the other edge *)
Definition place {T : gnum} (edge v : T) : T := if g_neg T v then g_add T edge v else v.

Local Opaque modes.
Section Sets.
  Context {T : gnum}.
  Definition sets_left (c : call T) := match c with SetMargins l _ _ => Some l | SetLeftMargin m => Some m | _ => None end.
  Definition sets_top (c : call T) := match c with SetMargins _ t _ => Some t | SetTopMargin m => Some m | _ => None end.
  Definition sets_right (c : call T) := match c with SetMargins l _ r => Some (if g_neg T r then l else r) | SetRightMargin m => Some m | _ => None end.
  Definition sets_break (c : call T) := match c with SetAutoPageBreak a m => Some (a, m) | _ => None end.
  Definition sets_cell (c : call T) := match c with SetCellMargin m => Some m | _ => None end.
  Definition sets_line (c : call T) := match c with SetLineWidth m => Some m | _ => None end.
  Definition sets_size (k : T) (c : call T) := match c with SetFontSize z => Some (z, g_div T z k) | SetFontUnitSize z => Some (g_mul T z k, z) | _ => None end.
  Definition sets_color (u : what) (c : call T) := match c with SetColor v r g b => if what_eqb v u then Some (capped 255 r, capped 255 g, capped 255 b) else None | _ => None end.
  Definition sets_alpha (c : call T) := match c with SetAlpha a m => Some (a, m) | _ => None end.
  (** the spot color selected for u, [None] when an RGB color replaces it *)
  Definition sets_spot (u : what) (c : call T) : option (option bytes) :=
    match c with SetSpotColor v n => if what_eqb v u then Some (Some n) else None | SetColor v _ _ _ => if what_eqb v u then Some None else None | _ => None end.
  Definition sets_spot_only (u : what) (c : call T) : option (option bytes) :=
    match c with SetSpotColor v n => if what_eqb v u then Some (Some n) else None | _ => None end.
  Definition moves (c : call T) : Prop := match c with SetX _ | SetY _ | SetXY _ _ | SetHomeXY | AddPage | SetLeftMargin _ => True | _ => False end.

  Notation run := (@run T).
  Notation step := (@step T).

  (** a getter that is set by single calls *)
  Lemma read_last {A} (g : gstate T -> A) (f : call T -> option A) :
    (forall c s, g (step c s) = match f c with Some x => x | None => g s end) -> forall cs s, g (run cs s) = last_of f (g s) cs.
  Proof.
    intros H cs. induction cs as [|c cs IH]; intros s; [reflexivity|]. cbn [GetModel.run fold_left]. unfold run in IH. rewrite IH.
    unfold last_of. cbn [fold_left]. now rewrite H.
  Qed.
  Lemma comp_capped v : color_comp v = capped 255 v.
  Proof. unfold color_comp, capped. destruct (Z.ltb_spec v 0); [lia|]. destruct (Z.ltb_spec 255 v); lia. Qed.
  Lemma bound_capped v : 0 <= v -> byte_bound v = capped 100 v.
  Proof. unfold byte_bound, capped. intros H. destruct (Z.ltb_spec 100 v); lia. Qed.

  Ltac look := intros c s; destruct c; cbn [GetModel.step]; unfold set_x, set_y; cbn;
    repeat (match goal with |- context [if ?b then _ else _] => destruct b | |- context [match find_ink ?a ?b with _ => _ end] => destruct (find_ink a b) end; cbn); try reflexivity.

  Lemma look_k c (s : gstate T) : q_k (step c s) = q_k s.
  Proof. revert c s. look. Qed.

  Theorem C87_read_back :
    forall (cs : list (call T)) (s0 : gstate T), let s := run cs s0 in
      (exists l t r b, get_margins s0 = (l, t, r, b) /\
         get_margins s = (last_of sets_left l cs, last_of sets_top t cs, last_of sets_right r cs, snd (last_of sets_break (get_auto s0) cs))) /\
      get_auto s = last_of sets_break (get_auto s0) cs /\
      get_cell s = last_of sets_cell (get_cell s0) cs /\
      get_line_width s = last_of sets_line (get_line_width s0) cs /\
      get_font_size s = last_of (sets_size (q_k s0)) (get_font_size s0) cs /\
      (forall u, get_color u s = last_of (sets_color u) (get_color u s0) cs).
  Proof.
    intros cs s0 s. subst s.
    assert (B : get_auto (run cs s0) = last_of sets_break (get_auto s0) cs) by (apply read_last; look).
    split; [|split; [exact B|]]; [|split; [|split; [|split]]].
    - do 4 eexists. split; [reflexivity|]. unfold get_margins.
      rewrite (read_last (@q_lm T) sets_left), (read_last (@q_tm T) sets_top), (read_last (@q_rm T) sets_right) by look.
      rewrite <- B. reflexivity.
    - apply read_last; look.
    - apply read_last; look.
    - assert (G : forall cs s, q_k s = q_k s0 -> get_font_size (run cs s) = last_of (sets_size (q_k s0)) (get_font_size s) cs).
      { induction cs0 as [|c cs0 IH]; intros s E; [reflexivity|]. cbn [GetModel.run fold_left]. unfold GetModel.run in IH. rewrite IH by (rewrite look_k; exact E).
        unfold last_of. cbn [fold_left]. f_equal. rewrite <- E. revert c s E. intros c s _. revert c s. look. }
      apply G. reflexivity.
    - intros u. apply read_last. intros c s. destruct c; cbn [GetModel.step]; unfold set_x, set_y, get_color; cbn;
        try (repeat (match goal with |- context [if ?b then _ else _] => destruct b | |- context [match find_ink ?a ?b with _ => _ end] => destruct (find_ink a b) end; cbn); reflexivity).
      + destruct u, u0; cbn; rewrite ?comp_capped; reflexivity.
      + destruct (q_err s); [reflexivity|]. destruct (find_ink name (q_inks s)); [|reflexivity]. destruct u, u0; reflexivity.
  Qed.

  (** ** Transparency and spot colors: in documents without error *)
  Lemma err_stays cs : forall s, ~ In ClearError cs -> q_err s = true -> q_err (run cs s) = true.
  Proof.
    induction cs as [|c cs IH]; intros s H E; [exact E|]. cbn [GetModel.run fold_left]. apply IH; [intros X; apply H; now right|].
    assert (c <> ClearError) by (intros ->; apply H; now left). destruct c; cbn [GetModel.step]; unfold set_x, set_y; cbn; rewrite ?E; cbn; try exact E; try reflexivity; try contradiction.
    destruct (q_page s && g_lt T (q_x s) m); exact E.
  Qed.
  Lemma ok_before c cs (s : gstate T) : ~ In ClearError (c :: cs) -> q_err (run (c :: cs) s) = false -> q_err s = false /\ q_err (step c s) = false.
  Proof.
    intros H E. split.
    - destruct (q_err s) eqn:X; [|reflexivity]. rewrite (err_stays _ _ H X) in E. discriminate.
    - destruct (q_err (step c s)) eqn:X; [|reflexivity]. cbn [GetModel.run fold_left] in E. unfold GetModel.run in *. change (q_err (run cs (step c s)) = false) in E. rewrite (err_stays cs _ (fun h => H (or_intror h)) X) in E. discriminate.
  Qed.

  Theorem C87_alpha :
    forall (cs : list (call T)) (s0 : gstate T), ~ In ClearError cs -> q_err (run cs s0) = false ->
      get_alpha (run cs s0) = last_of sets_alpha (get_alpha s0) cs.
  Proof.
    intros cs. induction cs as [|c cs IH]; intros s0 H E; [reflexivity|]. destruct (ok_before c cs s0 H E) as [E0 E1].
    cbn [GetModel.run fold_left]. etransitivity; [exact (IH (step c s0) (fun h => H (or_intror h)) E)|]. unfold last_of. cbn [fold_left]. f_equal.
    destruct c; cbn [GetModel.step] in *; unfold set_x, set_y in *; cbn in *; rewrite ?E0 in *; try reflexivity.
    - destruct (q_page s0 && g_lt T (q_x s0) m); reflexivity.
    - destruct (find_ink name (q_inks s0)); reflexivity.
    - destruct (find_ink name (q_inks s0)); reflexivity.
    - destruct (negb (existsb (beqb mode) modes)); [discriminate E1|]. destruct (g_neg T a || g_over_one T a); [discriminate E1|]. reflexivity.
  Qed.

  Definition all_inks (cs : list (call T)) : list (bytes * ink) :=
    flat_map (fun c => match c with AddSpotColor n c m y k => [(n, {| i_c := byte_bound c; i_m := byte_bound m; i_y := byte_bound y; i_k := byte_bound k |})] | _ => [] end) cs.
  Lemma find_none (n : bytes) l : find_ink n l = None -> ~ In n (map fst l).
  Proof.
    unfold find_ink. destruct (find (fun e => beqb (fst e) n) l) eqn:E; [discriminate|]. intros _ H. apply in_map_iff in H as (e & <- & Hi).
    pose proof (find_none _ _ E e Hi) as X. cbn in X. rewrite beqb_refl in X. discriminate.
  Qed.
  Lemma inks_run cs : forall s, ~ In ClearError cs -> q_err (run cs s) = false -> NoDup (map fst (q_inks s)) ->
    q_inks (run cs s) = q_inks s ++ all_inks cs /\ NoDup (map fst (q_inks s ++ all_inks cs)).
  Proof.
    induction cs as [|c cs IH]; intros s H E ND; [cbn; rewrite app_nil_r; split; [reflexivity|exact ND]|]. destruct (ok_before c cs s H E) as [E0 E1].
    cbn [GetModel.run fold_left]. specialize (IH (step c s) (fun h => H (or_intror h)) E).
    assert (G : q_inks (step c s) = q_inks s ++ all_inks [c] /\ NoDup (map fst (q_inks (step c s)))).
    { destruct c; cbn [GetModel.step all_inks flat_map] in *; unfold set_x, set_y in *; cbn in *; rewrite ?E0 in *; rewrite ?app_nil_r; try (split; [reflexivity|exact ND]).
      - destruct (q_page s && g_lt T (q_x s) m); split; [reflexivity|exact ND|reflexivity|exact ND].
      - destruct (find_ink name (q_inks s)); [|discriminate E1]. split; [reflexivity|exact ND].
      - destruct (find_ink name (q_inks s)) eqn:F; [discriminate E1|]. cbn. split; [reflexivity|]. rewrite map_app. cbn.
        apply find_none in F. apply NoDup_rev in ND. rewrite <- (rev_involutive (map fst (q_inks s) ++ [name])). apply NoDup_rev. rewrite rev_app_distr. cbn.
        constructor; [|exact ND]. now rewrite <- in_rev.
      - destruct (negb (existsb (beqb mode) modes)); [discriminate E1|]. destruct (g_neg T a || g_over_one T a); [discriminate E1|]. split; [reflexivity|exact ND]. }
    destruct G as [G1 G2]. destruct (IH G2) as [I1 I2]. rewrite G1 in I1, I2. rewrite <- app_assoc in I1, I2.
    change (all_inks [c] ++ all_inks cs) with ((match c with AddSpotColor n c m y k => [(n, {| i_c := byte_bound c; i_m := byte_bound m; i_y := byte_bound y; i_k := byte_bound k |})] | _ => [] end ++ []) ++ all_inks cs) in I1, I2.
    rewrite app_nil_r in I1, I2. split; [exact I1|exact I2].
  Qed.
  Lemma find_in (n : bytes) i l : NoDup (map fst l) -> In (n, i) l -> find_ink n l = Some i.
  Proof.
    unfold find_ink. induction l as [|[m j] l IH]; intros ND Hi; [contradiction|]. cbn. inversion ND as [|? ? H1 H2]; subst.
    destruct Hi as [Hi|Hi].
    - injection Hi as -> ->. now rewrite beqb_refl.
    - destruct (beqb m n) eqn:E; [|apply IH; assumption]. apply beqb_eq in E. subst. exfalso. apply H1. apply in_map_iff. exists (n, i). auto.
  Qed.
  Lemma spot_last u cs : forall s, ~ In ClearError cs -> q_err (run cs s) = false ->
    c_spot (q_color (run cs s) u) = match last_of (sets_spot u) (Some (c_spot (q_color s u))) cs with Some n => n | None => [] end.
  Proof.
    induction cs as [|c cs IH]; intros s H E; [reflexivity|]. destruct (ok_before c cs s H E) as [E0 E1].
    cbn [GetModel.run fold_left]. etransitivity; [exact (IH (step c s) (fun h => H (or_intror h)) E)|]. unfold last_of. cbn [fold_left].
    assert (G : forall (x y : option bytes), match x with Some n => n | None => [] end = match y with Some n => n | None => [] end ->
       match fold_left (fun a c => match sets_spot u c with Some x => x | None => a end) cs x with Some n => n | None => [] end =
       match fold_left (fun a c => match sets_spot u c with Some x => x | None => a end) cs y with Some n => n | None => [] end).
    { clear. induction cs as [|c cs IH]; intros x y H; [exact H|]. cbn [fold_left]. apply IH. destruct (sets_spot u c); [reflexivity|exact H]. }
    apply G. destruct c; cbn [GetModel.step] in *; unfold set_x, set_y in *; cbn in *; rewrite ?E0 in *; try reflexivity.
    - destruct (q_page s && g_lt T (q_x s) m); reflexivity.
    - destruct u, u0; reflexivity.
    - destruct (find_ink name (q_inks s)); [|discriminate E1]. destruct u, u0; reflexivity.
    - destruct (find_ink name (q_inks s)); reflexivity.
    - destruct (negb (existsb (beqb mode) modes)); [discriminate E1|]. destruct (g_neg T a || g_over_one T a); reflexivity.
  Qed.

  (** the document says "the most recently used spot color information"; missing: an RGB color in between makes it forget (C87_spot_refuted) *)
  Theorem C87_spot_partial :
    forall (cs : list (call T)) (s0 : gstate T) (u : what),
      q_inks s0 = [] -> c_spot (q_color s0 u) = [] -> ~ In ClearError cs -> let s := run cs s0 in q_err s = false ->
      match last_of (sets_spot u) None cs with
      | None | Some [] => fst (get_spot u s) = []
      | Some name => forall c m y k, In (AddSpotColor name c m y k) cs -> 0 <= c -> 0 <= m -> 0 <= y -> 0 <= k ->
          get_spot u s = (name, {| i_c := capped 100 c; i_m := capped 100 m; i_y := capped 100 y; i_k := capped 100 k |})
      end.
  Proof.
    intros cs s0 u Hi Hs H s E. pose proof (spot_last u cs s0 H E) as L. rewrite Hs in L.
    assert (L' : c_spot (q_color s u) = match last_of (sets_spot u) None cs with Some n => n | None => [] end).
    { unfold s. rewrite L. clear. unfold last_of.
      assert (G : forall (x y : option bytes), match x with Some n => n | None => [] end = match y with Some n => n | None => [] end ->
        match fold_left (fun a c => match sets_spot u c with Some x => x | None => a end) cs x with Some n => n | None => [] end =
        match fold_left (fun a c => match sets_spot u c with Some x => x | None => a end) cs y with Some n => n | None => [] end).
      { induction cs as [|c cs IH]; intros x y H; [exact H|]. cbn [fold_left]. apply IH. destruct (sets_spot u c); [reflexivity|exact H]. }
      apply G. reflexivity. }
    destruct (inks_run cs s0 H E) as [I ND]; [rewrite Hi; constructor|]. rewrite Hi in I, ND. cbn [app] in I, ND. change (q_inks s = all_inks cs) in I.
    destruct (last_of (sets_spot u) None cs) as [[|n0 n]|] eqn:El; [|intros c m y k Hin Hc Hm Hy Hk|].
    - unfold get_spot. rewrite L'. reflexivity.
    - unfold get_spot. rewrite L'. rewrite E, I. f_equal.
      rewrite (find_in (n0 :: n) {| i_c := byte_bound c; i_m := byte_bound m; i_y := byte_bound y; i_k := byte_bound k |} _ ND).
      + now rewrite !bound_capped by assumption.
      + unfold all_inks. apply in_flat_map. eexists. split; [exact Hin|]. now left.
    - unfold get_spot. rewrite L'. reflexivity.
  Qed.

  (** ** The position *)
  Lemma stays cs : forall s, Forall (fun c => ~ moves c) cs -> get_xy (run cs s) = get_xy s.
  Proof.
    induction cs as [|c cs IH]; intros s F; [reflexivity|]. inversion F as [|? ? F1 F2]; subst. cbn [GetModel.run fold_left]. etransitivity; [apply IH; exact F2|].
    clear - F1. destruct c; cbn [GetModel.step moves] in *; try (exfalso; apply F1; exact I); try reflexivity;
      repeat (match goal with |- context [if ?b then _ else _] => destruct b | |- context [match find_ink ?a ?b with _ => _ end] => destruct (find_ink a b) end; cbn); try reflexivity.
  Qed.
  Lemma const_wh cs : forall s : gstate T, q_w (run cs s) = q_w s /\ q_h (run cs s) = q_h s.
  Proof.
    assert (G : forall A (d : A), last_of (fun _ : call T => None) d cs = d).
    { intros A d. unfold last_of. induction cs as [|c l IH]; [reflexivity|exact IH]. }
    assert (Hw : forall c (s : gstate T), q_w (step c s) = match (fun _ : call T => @None T) c with Some x => x | None => q_w s end) by look.
    assert (Hh : forall c (s : gstate T), q_h (step c s) = match (fun _ : call T => @None T) c with Some x => x | None => q_h s end) by look.
    intros s. split; [rewrite (read_last (@q_w T) (fun _ => None) Hw)|rewrite (read_last (@q_h T) (fun _ => None) Hh)]; apply G.
  Qed.
  Lemma run_app (a b : list (call T)) (s : gstate T) : run (a ++ b) s = run b (run a s).
  Proof. unfold GetModel.run. apply fold_left_app. Qed.

  Theorem C87_position :
    forall (before after : list (call T)) (s0 : gstate T), Forall (fun c => ~ moves c) after ->
      let w := q_w s0 in let h := q_h s0 in
      let left := last_of sets_left (q_lm s0) before in let top := last_of sets_top (q_tm s0) before in
      let at_ c := get_xy (run (before ++ c :: after) s0) in
      (forall x y, at_ (SetXY x y) = (place w x, place h y)) /\
      (forall x, at_ (SetX x) = (place w x, snd (get_xy (run before s0)))) /\
      (forall y, at_ (SetY y) = (left, place h y)) /\
      at_ SetHomeXY = (place w left, place h top) /\
      (q_err (run before s0) = false -> at_ AddPage = (left, top)).
  Proof.
    intros before after s0 F w h left top at_. destruct (const_wh before s0) as [Ew Eh].
    assert (L : q_lm (run before s0) = left) by (apply (read_last (@q_lm T) sets_left); look).
    assert (Tp : q_tm (run before s0) = top) by (apply (read_last (@q_tm T) sets_top); look).
    assert (R : forall c, at_ c = get_xy (step c (run before s0))).
    { intros c. unfold at_. rewrite run_app. change (c :: after) with ([c] ++ after). rewrite run_app. rewrite (stays after _ F). reflexivity. }
    repeat split; intros; rewrite R; cbn [GetModel.step]; unfold set_x, set_y, get_xy, place; cbn; rewrite ?Ew, ?Eh, ?L, ?Tp; try reflexivity.
    rewrite H. cbn. rewrite ?L, ?Tp. reflexivity.
  Qed.
End Sets.
Print Assumptions C87_read_back.
Print Assumptions C87_alpha.
Print Assumptions C87_spot_partial.
Print Assumptions C87_position.

(** ** Refuted: spotcolor.go:139-142 promises the most recently used spot color even when an RGB color is active *)
Definition Znum : gnum := {| N := Z; g_neg := fun a => a <? 0; g_lt := Z.ltb; g_over_one := fun a => 1 <? a; g_add := Z.add; g_mul := Z.mul; g_div := Z.div |}.
Definition black : rgb := {| c_r := 0; c_g := 0; c_b := 0; c_spot := [] |}.
Definition doc0 : gstate Znum :=
  {| q_k := 72 : N Znum; q_w := 200 : N Znum; q_h := 300 : N Znum; q_page := false; q_err := false; q_lm := 10 : N Znum; q_tm := 10 : N Znum; q_rm := 10 : N Znum; q_bm := 20 : N Znum; q_auto := true;
     q_cm := 1 : N Znum; q_x := 0 : N Znum; q_y := 0 : N Znum; q_color := fun _ => black; q_inks := []; q_lw := 0 : N Znum; q_alpha := 1 : N Znum; q_blend := bs "Normal"; q_pt := 12 : N Znum; q_unit := 0 : N Znum |}.
Definition orange_then_black : list (call Znum) := [AddSpotColor (bs "orange") 0 45 90 0; SetSpotColor Draw (bs "orange"); SetColor Draw 0 0 0].
Theorem C87_spot_refuted :
  ~ (forall cs u, ~ In ClearError cs -> q_err (run cs doc0) = false -> fst (get_spot u (run cs doc0)) = match last_of (sets_spot_only u) None cs with Some n => n | None => [] end).
Proof.
  intros H. specialize (H orange_then_black Draw). assert (A : ~ In ClearError orange_then_black).
  { intros X. cbn in X. repeat (destruct X as [X|X]; [discriminate X|]). exact X. }
  specialize (H A). vm_compute in H. discriminate (H eq_refl).
Qed.
Print Assumptions C87_spot_refuted.

(** ** The hypotheses are met *)
Definition sets : list (call Znum) :=
  [SetMargins (15 : N Znum) (12 : N Znum) (-1 : N Znum); AddPage; SetColor Fill 300 (-4) 17; AddSpotColor (bs "orange") 0 45 190 0; SetSpotColor Fill (bs "orange"); SetAlpha (0 : N Znum) (bs "Multiply"); SetFontUnitSize (3 : N Znum);
   SetXY (-5 : N Znum) (7 : N Znum); SetRightMargin (9 : N Znum); SetTopMargin (8 : N Znum)].
Example sets_ok : let s := run sets doc0 in ~ In ClearError sets /\ q_err s = false /\
  get_margins s = (15, 8, 9, 20) /\ get_color Fill s = (255, 0, 17) /\ get_alpha s = (0, bs "Multiply") /\
  get_spot Fill s = (bs "orange", {| i_c := 0; i_m := 45; i_y := 100; i_k := 0 |}) /\ get_font_size s = (216, 3) /\ get_xy s = (195, 7).
Proof.
  cbv zeta. split; [intros X; cbn in X; repeat (destruct X as [X|X]; [discriminate X|]); exact X|].
  vm_compute. repeat split.
Qed.
Example sets_position : Forall (fun c => ~ moves c) [SetRightMargin (9 : N Znum); SetTopMargin (8 : N Znum)] /\ last_of (sets_spot Fill) None sets = Some (bs "orange").
Proof. split; [repeat constructor; cbn; tauto|reflexivity]. Qed.
