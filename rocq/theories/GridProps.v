(** C44 and C56: the axes of a grid, its tick marks, lines and plots, over the
    real numbers. *)
From Coq Require Import Reals Lra Psatz String SpecFloat.
From Verif Require Import Base TextModel ApiModel ApiInst TransProps SizeProps GridModel.
Local Open Scope list_scope.
Local Open Scope R_scope.
Notation length := List.length.

(** math.Floor, math.Ceil, math.Log10 and math.Pow10 on the reals *)
Definition log10 (x : R) : R := ln x / ln 10.
Definition p10 (z : Z) : R := powerRZ 10 z.
Definition mathR : math_env arithR := mk_math arithR (fun x => IZR (Int_part x)) (fun x => - IZR (Int_part (- x))) log10 p10 (fun x => Int_part x).

(** ** Floors and powers of ten *)
Lemma Int_unique x z : IZR z <= x -> x < IZR z + 1 -> Int_part x = z.
Proof.
  intros H1 H2. destruct (base_Int_part x) as [B1 B2]. apply Z.le_antisymm.
  - apply Z.lt_succ_r. apply lt_IZR. rewrite succ_IZR. lra.
  - apply Z.lt_succ_r. apply lt_IZR. rewrite succ_IZR. lra.
Qed.
Lemma Int_IZR z : Int_part (IZR z) = z.
Proof. apply Int_unique; lra. Qed.
Lemma p10_pos z : 0 < p10 z.
Proof. apply powerRZ_lt. lra. Qed.
Lemma p10_S z : p10 (z + 1) = 10 * p10 z.
Proof. unfold p10. rewrite powerRZ_add by lra. rewrite powerRZ_1. lra. Qed.
Lemma ln10_pos : 0 < ln 10.
Proof. rewrite <- ln_1. apply ln_increasing; lra. Qed.
Lemma ln_pow n : ln (10 ^ n) = INR n * ln 10.
Proof.
  induction n as [|n IH]; [cbn [pow INR]; rewrite ln_1; lra|]. rewrite S_INR. cbn [pow]. rewrite ln_mult by (try apply pow_lt; lra). rewrite IH. lra.
Qed.
Lemma ln_p10 z : ln (p10 z) = IZR z * ln 10.
Proof.
  unfold p10. destruct z as [|p|p]; cbn [powerRZ].
  - rewrite ln_1. lra.
  - rewrite ln_pow, INR_IPR. reflexivity.
  - rewrite ln_Rinv by (apply pow_lt; lra). rewrite ln_pow, INR_IPR. change (IZR (Z.neg p)) with (- IPR p). lra.
Qed.
(** the whole part of the decimal logarithm *)
Lemma log10_floor v z : p10 z <= v -> v < p10 (z + 1) -> Int_part (log10 v) = z.
Proof.
  intros H1 H2. pose proof ln10_pos. pose proof (p10_pos z). unfold log10. apply Int_unique.
  - apply Rmult_le_reg_r with (ln 10); [assumption|]. unfold Rdiv. rewrite Rmult_assoc, Rinv_l by lra. rewrite <- ln_p10, Rmult_1_r.
    destruct H1 as [H1| <-]; [left; now apply ln_increasing|right; reflexivity].
  - apply Rmult_lt_reg_r with (ln 10); [assumption|]. unfold Rdiv. rewrite Rmult_assoc, Rinv_l by lra. rewrite Rmult_1_r.
    replace ((IZR z + 1) * ln 10) with (ln (p10 (z + 1))) by (rewrite ln_p10, plus_IZR; reflexivity). apply ln_increasing; lra.
Qed.
Lemma log10_bounds v : 0 < v -> let z := Int_part (log10 v) in p10 z <= v < p10 (z + 1).
Proof.
  intros Hv z. pose proof ln10_pos. destruct (base_Int_part (log10 v)) as [B1 B2]. fold z in B1, B2. unfold log10 in *.
  assert (E : ln v = ln v / ln 10 * ln 10) by (field; lra).
  split.
  - destruct (Rle_lt_dec (p10 z) v) as [|L]; [assumption|]. exfalso. apply ln_increasing in L; [|assumption]. rewrite ln_p10 in L. nra.
  - destruct (Rlt_le_dec v (p10 (z + 1))) as [|L]; [assumption|]. exfalso.
    assert (ln (p10 (z + 1)) <= ln v) by (destruct L as [L| ->]; [left; apply ln_increasing; [apply p10_pos|assumption]|right; reflexivity]). rewrite ln_p10, plus_IZR in H0. nra.
Qed.

(** ** Round numbers *)
Definition round_number (d : R) : Prop := exists m e, In m [1; 2; 5; 10] /\ d = m * p10 e.
Notation nice := (nice_num (A := arithR) mathR).
Lemma nice_val val round e : p10 e <= val -> val < p10 (e + 1) ->
  nice val round = (if round then if Rltb (val / p10 e) (3 / 2) then 1 else if Rltb (val / p10 e) 3 then 2 else if Rltb (val / p10 e) 7 then 5 else 10
     else if negb (Rltb 1 (val / p10 e)) then 1 else if negb (Rltb 2 (val / p10 e)) then 2 else if negb (Rltb 5 (val / p10 e)) then 5 else 10) * p10 e.
Proof.
  intros H1 H2. unfold nice_num. cbn [floor_ log10_ pow10_ int_ mathR]. rewrite (log10_floor val e) by assumption. rewrite Int_IZR. reflexivity.
Qed.
Lemma nice_up v : 0 < v -> exists m e, In m [1; 2; 5; 10] /\ nice v false = m * p10 e /\ v <= m * p10 e <= 5 / 2 * v.
Proof.
  intros Hv. set (e := Int_part (log10 v)). destruct (log10_bounds v Hv) as [B1 B2]. fold e in B1, B2. pose proof (p10_pos e) as P.
  rewrite (nice_val v false e B1 B2). assert (Ev : v = v / p10 e * p10 e) by (field; lra). rewrite p10_S in B2. set (f := v / p10 e) in *.
  assert (F1 : 1 <= f) by (rewrite Ev in B1; nra). assert (F2 : f < 10) by (rewrite Ev in B2; nra). rewrite Ev.
  destruct (Rlt_le_dec 1 f) as [E1|E1]; [rewrite (Rltb_true 1 f E1)|rewrite (Rltb_false 1 f E1)]; cbn [negb].
  2:{ exists 1, e. split; [cbn; auto|]. split; [reflexivity|]. nra. }
  destruct (Rlt_le_dec 2 f) as [E2|E2]; [rewrite (Rltb_true 2 f E2)|rewrite (Rltb_false 2 f E2)]; cbn [negb].
  2:{ exists 2, e. split; [cbn; auto|]. split; [reflexivity|]. nra. }
  destruct (Rlt_le_dec 5 f) as [E3|E3]; [rewrite (Rltb_true 5 f E3)|rewrite (Rltb_false 5 f E3)]; cbn [negb].
  2:{ exists 5, e. split; [cbn; auto|]. split; [reflexivity|]. nra. }
  exists 10, e. split; [cbn; auto|]. split; [reflexivity|]. nra.
Qed.
Lemma nice_quarter m e : In m [1; 2; 5; 10] -> exists d, nice (m * p10 e / 4) true = d /\ round_number d /\ 1 / 5 * (m * p10 e) <= d <= 1 / 4 * (m * p10 e).
Proof.
  intros Hm. pose proof (p10_pos e) as P. pose proof (p10_pos (e - 1)) as P1. assert (E1 : p10 e = 10 * p10 (e - 1)) by (rewrite <- p10_S; f_equal; lia).
  assert (Hs : p10 (e - 1 + 1) = p10 e) by (f_equal; lia).
  destruct Hm as [<-|[<-|[<-|[<-|[]]]]]; eexists; (split; [reflexivity|]).
  - rewrite (nice_val _ true (e - 1)) by (rewrite ?Hs; lra). replace (1 * p10 e / 4 / p10 (e - 1)) with (5 / 2) by (rewrite E1; field; lra). dec_R.
    split; [exists 2, (e - 1)%Z; split; [cbn; auto|reflexivity]|lra].
  - rewrite (nice_val _ true (e - 1)) by (rewrite ?Hs; lra). replace (2 * p10 e / 4 / p10 (e - 1)) with 5 by (rewrite E1; field; lra). dec_R.
    split; [exists 5, (e - 1)%Z; split; [cbn; auto|reflexivity]|lra].
  - rewrite (nice_val _ true e) by (rewrite ?p10_S; lra). replace (5 * p10 e / 4 / p10 e) with (5 / 4) by (field; lra). dec_R.
    split; [exists 1, e; split; [cbn; auto|reflexivity]|lra].
  - rewrite (nice_val _ true e) by (rewrite ?p10_S; lra). replace (10 * p10 e / 4 / p10 e) with (5 / 2) by (field; lra). dec_R.
    split; [exists 2, e; split; [cbn; auto|reflexivity]|lra].
Qed.

(** ** The loop over the tick marks *)
Lemma tick_loop_run : forall n x d limit fuel, 0 < d -> x + INR n * d < limit -> limit <= x + INR (S n) * d -> (n < fuel)%nat ->
  tick_loop (A := arithR) fuel x limit d = Ret (map (fun i => x + INR i * d) (seq 0 (S n))).
Proof.
  induction n as [|n IH]; intros x d limit fuel Hd H1 H2 Hf; (destruct fuel as [|fuel]; [lia|]); cbn [tick_loop]; to_R.
  - cbn [INR] in *. rewrite Rltb_true by lra. destruct fuel; cbn [tick_loop]; to_R; rewrite Rltb_false by lra; cbn; do 2 f_equal; lra.
  - rewrite S_INR in H1. pose proof (pos_INR n). rewrite Rltb_true by nra. rewrite (IH (x + d) d limit fuel); [|assumption|lra|rewrite !S_INR in *; lra|lia].
    cbn [obind]. f_equal. change (seq 0 (S (S n))) with (0%nat :: seq 1 (S n)). cbn [map]. f_equal; [cbn; lra|].
    rewrite <- seq_shift, map_map. apply map_ext. intros i. rewrite S_INR. lra.
Qed.

(** ** C44: tick marks *)
(** A list of evenly spaced values. *)
Definition evenly (first d : R) (n : nat) : list R := map (fun i => first + INR i * d) (seq 0 (S n)).
Theorem C44_tickmarks : forall min max, min < max ->
  exists d n first,
    (forall fuel, (n < fuel)%nat -> exists prec, tickmarks (A := arithR) mathR fuel min max = Ret (evenly first d n, prec)) /\
    0 < d /\ round_number d /\ (exists z, first = IZR z * d) /\
    first <= min < first + d /\ first + INR n * d - d < max <= first + INR n * d /\
    (2 <= n <= 6)%nat.
Proof.
  intros mn mx H. destruct (nice_up (mx - mn) ltac:(lra)) as (m & e & Hm & En & B). destruct (nice_quarter m e Hm) as (d & Ed & Rd & Bd).
  assert (Hd : 0 < d) by lra.
  set (a := Int_part (mn / d)). set (b := (- Int_part (- (mx / d)))%Z).
  destruct (base_Int_part (mn / d)) as [A1 A2]. fold a in A1, A2. destruct (base_Int_part (- (mx / d))) as [C1 C2].
  assert (C1' : mx / d <= IZR b) by (unfold b; rewrite opp_IZR; lra). assert (C2' : IZR b - 1 < mx / d) by (unfold b; rewrite opp_IZR; lra).
  assert (Dm : mn = mn / d * d) by (field; lra). assert (DM : mx = mx / d * d) by (field; lra).
  set (u := mn / d) in *. set (v := mx / d) in *.
  assert (UV : 8 / 5 <= v - u <= 5) by (split; nra).
  assert (N2 : (2 <= b - a)%Z). { apply le_IZR. assert (IZR 1 < IZR (b - a)) by (rewrite minus_IZR; lra). apply lt_IZR in H0. apply IZR_le. lia. }
  assert (N6 : (b - a <= 6)%Z). { assert (IZR (b - a) < IZR 7) by (rewrite minus_IZR; lra). apply lt_IZR in H0. lia. }
  assert (Nn : INR (Z.to_nat (b - a)) = IZR b - IZR a) by (rewrite INR_IZR_INZ, Z2Nat.id, minus_IZR by lia; reflexivity).
  exists d, (Z.to_nat (b - a)), (IZR a * d). split; [|split; [exact Hd|split; [exact Rd|split; [now exists a|split; [nra|split; [rewrite Nn; nra|lia]]]]]].
  intros fuel Hf. unfold tickmarks. to_R. rewrite Rltb_true by exact H. rewrite En, Ed. eexists.
  change (floor_ mathR (mn / d)) with (IZR a). change (ceil_ mathR (mx / d)) with (- IZR (Int_part (- v))). replace (- IZR (Int_part (- v))) with (IZR b) by (unfold b; rewrite opp_IZR; reflexivity).
  cbv zeta. rewrite (tick_loop_run (Z.to_nat (b - a))); [reflexivity|exact Hd| | |exact Hf]; rewrite ?S_INR, Nn; lra.
Qed.
Print Assumptions C44_tickmarks.
(** an empty or reversed range has no tick marks *)
Theorem C44_no_range : forall fuel min max, max <= min -> tickmarks (A := arithR) mathR fuel min max = Ret ([], 0%Z).
Proof. intros fuel mn mx H. unfold tickmarks. to_R. now rewrite Rltb_false. Qed.

(** ** C44: the axes *)
Lemma linear_ends a b p q : a <> b -> forall m c, linear (A := arithR) a p b q = (m, c) -> m * a + c = p /\ m * b + c = q /\ m = (q - p) / (b - a).
Proof.
  intros N m c E. unfold linear in E. to_R. rewrite Reqb_false in E by lra. cbn [negb] in E. injection E as <- <-. repeat split; field; lra.
Qed.
Lemma last_default {T} (l : list T) : forall d d', l <> [] -> last l d = last l d'.
Proof. induction l as [|x l IH]; intros d d' N; [easy|]. destruct l as [|y l]; [reflexivity|]. change (last (y :: l) d = last (y :: l) d'). now apply IH. Qed.
(** a grid whose horizontal axis has been laid out for a list of tick marks *)
Definition laid_x (g : grid (A := arithR)) (ticks : list R) : Prop := exists (g0 : grid (A := arithR)) (prec : Z), g = set_x (A := arithR) g0 (ticks, prec).
Definition laid_y (g : grid (A := arithR)) (ticks : list R) : Prop := exists (g0 : grid (A := arithR)) (prec : Z), g = set_y (A := arithR) g0 (ticks, prec).
Theorem C44_x_axis : forall g ticks lo hi, laid_x g ticks -> ticks <> [] -> hd 0 ticks = lo -> last ticks 0 = hi -> lo <> hi ->
  px g lo = gx g /\ px g hi = gx g + gw g /\
  (forall r y, px g (lo + r * (hi - lo)) = fst (pos g r y)) /\
  (forall a b, px g a - px g b = wd g (a - b)) /\
  (gw g <> 0 -> forall a b, px g a = px g b -> a = b).
Proof.
  intros g ticks lo hi (g0 & prec & ->) N Hl Hh D. unfold set_x. cbn [fst snd]. destruct ticks as [|t ticks]; [easy|]. cbn [hd] in Hl. subst t.
  unfold linear_ticks. assert (HL : @last (num arithR) (lo :: ticks) lo = hi) by (rewrite <- Hh; now apply last_default).
  match goal with |- context [linear ?a ?b ?c ?d] => destruct (linear (A := arithR) a b c d) as [m c0] eqn:E end. rewrite HL in E. apply linear_ends in E as (E1 & E2 & E3); [|exact D]. unfold px, pos, wd. cbn [xm xb gx gw fst snd]. to_R.
  repeat split; intros; try lra.
  - rewrite <- E1, E3. field. lra.
  - assert (m <> 0). { intros M. rewrite M in E3. apply H. assert ((gx g0 + gw g0 - gx g0) = 0 * (hi - lo)) by (rewrite E3; field; lra). lra. } nra.
Qed.
Print Assumptions C44_x_axis.

(** the vertical axis: the lowest value is at the bottom, that is at y + h *)
Theorem C44_y_axis : forall g ticks lo hi, laid_y g ticks -> ticks <> [] -> hd 0 ticks = lo -> last ticks 0 = hi -> lo <> hi ->
  py g lo = gy g + gh g /\ py g hi = gy g /\
  (forall r x, py g (lo + r * (hi - lo)) = snd (pos g x r)) /\
  (forall a b, py g a - py g b = ht g (a - b)) /\
  (gh g <> 0 -> forall a b, py g a = py g b -> a = b).
Proof.
  intros g ticks lo hi (g0 & prec & ->) N Hl Hh D. unfold set_y. cbn [fst snd]. destruct ticks as [|t ticks]; [easy|]. cbn [hd] in Hl. subst t.
  unfold linear_ticks. assert (HL : @last (num arithR) (lo :: ticks) lo = hi) by (rewrite <- Hh; now apply last_default).
  match goal with |- context [linear ?a ?b ?c ?d] => destruct (linear (A := arithR) a b c d) as [m c0] eqn:E end. rewrite HL in E. apply linear_ends in E as (E1 & E2 & E3); [|exact D]. unfold py, pos, ht. cbn [ym yb gy gh fst snd]. to_R.
  repeat split; intros; try lra.
  - assert (M : m * (hi - lo) = - gh g0) by (rewrite E3; field; lra). nra.
  - assert (m <> 0). { intros M. rewrite M in E3. apply H. assert ((gy g0 - (gy g0 + gh g0)) = 0 * (hi - lo)) by (rewrite E3; field; lra). lra. } nra.
Qed.
Print Assumptions C44_y_axis.

(** tick marks given by their extent *)
Theorem C44_extent : forall m d count, (0 <= count)%Z -> exists prec, extent (A := arithR) mathR m d count = Ret (evenly m d (Z.to_nat count), prec).
Proof.
  intros m d count H. unfold extent. replace (count + 1 <? 0)%Z with false by (symmetry; apply Z.ltb_ge; lia). eexists. do 2 f_equal.
  replace (Z.to_nat (count + 1)) with (S (Z.to_nat count)) by lia. unfold evenly. generalize (S (Z.to_nat count)) as n. clear. intros n. revert m.
  induction n as [|n IH]; intros m; [reflexivity|]. cbn [extent_loop]. to_R. rewrite IH. change (seq 0 (S n)) with (0%nat :: seq 1 n). cbn [map]. f_equal; [cbn; lra|].
  rewrite <- seq_shift, map_map. apply map_ext. intros i. rewrite S_INR. lra.
Qed.
(** the four ways of laying out an axis, and a new grid *)
Theorem C44_laid_out : forall (g g' : grid (A := arithR)),
  (forall fuel mn mx, contain_x mathR fuel mn mx g = Ret g' -> exists t p, tickmarks mathR fuel mn mx = Ret (t, p) /\ laid_x g' t /\ gx g' = gx g /\ gw g' = gw g) /\
  (forall fuel mn mx, contain_y mathR fuel mn mx g = Ret g' -> exists t p, tickmarks mathR fuel mn mx = Ret (t, p) /\ laid_y g' t /\ gy g' = gy g /\ gh g' = gh g) /\
  (forall m d n, extent_x mathR m d n g = Ret g' -> exists t p, extent mathR m d n = Ret (t, p) /\ laid_x g' t /\ gx g' = gx g /\ gw g' = gw g) /\
  (forall m d n, extent_y mathR m d n g = Ret g' -> exists t p, extent mathR m d n = Ret (t, p) /\ laid_y g' t /\ gy g' = gy g /\ gh g' = gh g).
Proof.
  intros g g'. split; [|split; [|split]].
  - intros fuel mn mx H. unfold contain_x in H. destruct (tickmarks _ _ _ _) as [[t p]| |] eqn:E; try discriminate. cbn [obind] in H. injection H as <-. exists t, p. split; [reflexivity|].
    split; [now exists g, p|]. unfold set_x. cbn [fst snd]. now destruct (linear_ticks _ _ _).
  - intros fuel mn mx H. unfold contain_y in H. destruct (tickmarks _ _ _ _) as [[t p]| |] eqn:E; try discriminate. cbn [obind] in H. injection H as <-. exists t, p. split; [reflexivity|].
    split; [now exists g, p|]. unfold set_y. cbn [fst snd]. now destruct (linear_ticks _ _ _).
  - intros m d n H. unfold extent_x in H. destruct (extent _ _ _ _) as [[t p]| |] eqn:E; try discriminate. cbn [obind] in H. injection H as <-. exists t, p. split; [reflexivity|].
    split; [now exists g, p|]. unfold set_x. cbn [fst snd]. now destruct (linear_ticks _ _ _).
  - intros m d n H. unfold extent_y in H. destruct (extent _ _ _ _) as [[t p]| |] eqn:E; try discriminate. cbn [obind] in H. injection H as <-. exists t, p. split; [reflexivity|].
    split; [now exists g, p|]. unfold set_y. cbn [fst snd]. now destruct (linear_ticks _ _ _).
Qed.
(** a grid for the data from -3 to 11, placed 100 wide at 20 *)
Example C44_ex : exists g, new_grid (A := arithR) mathR 20 30 100 50 = Ret g /\ px g 0 = 20 /\ px g 1 = 120 /\ py g 0 = 80 /\ py g 1 = 30.
Proof.
  destruct (C44_extent 0 1 1 ltac:(lia)) as [p E].
  assert (EV : evenly 0 1 (Z.to_nat 1) = [0; 1]) by (unfold evenly; change (seq 0 (S (Z.to_nat 1))) with [0%nat; 1%nat]; cbn [map INR]; repeat f_equal; lra). rewrite EV in E.
  unfold new_grid, extent_x. to_R. rewrite E. cbn [obind]. unfold extent_y. rewrite E. cbn [obind]. eexists. split; [reflexivity|].
  unfold set_x, linear_ticks, linear. cbn [fst snd last]. to_R. rewrite Reqb_false by lra. cbn [negb]. unfold set_y, linear_ticks, linear. cbn [fst snd last]. to_R. rewrite Reqb_false by lra. cbn [negb].
  unfold px, py. cbn [gx gy gw gh xm xb ym yb]. to_R. repeat split; field.
Qed.

(** ** C44 on floating point numbers *)
(** math.Floor and math.Ceil of IEEE numbers *)
Definition sf_floor (x : spec_float) : spec_float :=
  match x with
  | S754_finite s m e => if (0 <=? e)%Z then x else f64 ((if s then Z.neg m else Z.pos m) / 2 ^ (- e))
  | _ => x
  end.
Definition sf_ceil (x : spec_float) : spec_float := SFopp (sf_floor (SFopp x)).
(** With a large minimum and a small spread the sum x + d rounds to x: the loop
    never ends and the list grows without bound. *)
Theorem C44_terminates_refuted : forall cos sin tan pi f3 lg p10 int,
  let F := ieee cos sin tan pi f3 in
  int (sf_floor (lg (f64 16))) = 1%Z -> int (sf_floor (lg (f64 5))) = 0%Z -> p10 1%Z = f64 10 -> p10 0%Z = f64 1 ->
  let mn := f64 (10 ^ 17) in let mx := f64 (10 ^ 17 + 16) in
  SFltb mn mx = true /\ forall fuel, tickmarks (A := F) (mk_math F sf_floor sf_ceil lg p10 int) fuel mn mx = OutOfFuel.
Proof.
  intros cos sin tan pi f3 lg p int F H16 H5 P1 P0 mn mx. split; [vm_compute; reflexivity|]. intros fuel. unfold tickmarks. change (nlt F mn mx) with (SFltb mn mx).
  replace (SFltb mn mx) with true by (vm_compute; reflexivity).
  set (E := mk_math F sf_floor sf_ceil lg p int).
  assert (S1 : nice_num E (nsub F mx mn) false = f64 20).
  { unfold nice_num. change (nsub F mx mn) with (SFsub 53 1024 mx mn). replace (SFsub 53 1024 mx mn) with (f64 16) by (vm_compute; reflexivity).
    cbn [floor_ log10_ int_ pow10_ E]. rewrite H16, P1. cbn [ndiv nmul nlt ofZ F ieee]. vm_compute. reflexivity. }
  rewrite S1.
  assert (S2 : nice_num E (ndiv F (f64 20) (ofZ F 4)) true = f64 5).
  { unfold nice_num. change (ndiv F (f64 20) (ofZ F 4)) with (SFdiv 53 1024 (f64 20) (f64 4)). replace (SFdiv 53 1024 (f64 20) (f64 4)) with (f64 5) by (vm_compute; reflexivity).
    cbn [floor_ log10_ int_ pow10_ E]. rewrite H5, P0. cbn [ndiv nmul nlt ofZ F ieee]. vm_compute. reflexivity. }
  rewrite S2. cbv zeta. cbn [floor_ ceil_ E ndiv nmul nadd ofZ F ieee].
  replace (SFmul 53 1024 (sf_floor (SFdiv 53 1024 mn (f64 5))) (f64 5)) with mn by (vm_compute; reflexivity).
  set (limit := SFadd 53 1024 _ _). assert (L : limit = mx) by (vm_compute; reflexivity). rewrite L. clear L limit.
  assert (T : tick_loop (A := F) fuel mn mx (f64 5) = OutOfFuel).
  { induction fuel as [|fuel IH]; cbn [tick_loop]; change (nlt F mn mx) with (SFltb mn mx); replace (SFltb mn mx) with true by (vm_compute; reflexivity); [reflexivity|].
    change (nadd F mn (f64 5)) with (SFadd 53 1024 mn (f64 5)). replace (SFadd 53 1024 mn (f64 5)) with mn by (vm_compute; reflexivity). now rewrite IH. }
  rewrite T. reflexivity.
Qed.
Print Assumptions C44_terminates_refuted.

(** ** C56: grid lines and plots *)
(** The vertical lines: one main line at each tick mark, and n - 1 lines between
    two tick marks, that divide the distance in n equal parts. *)
Lemma subdivide_spec : forall n p d (seg : R -> bool -> line (A := arithR)), subdivide (A := arithR) n p d seg = map (fun k => seg (p + INR k * d) false) (seq 1 n).
Proof.
  induction n as [|n IH]; intros p d seg; [reflexivity|]. cbn [subdivide seq map]. to_R. cbv zeta. rewrite IH. f_equal; [f_equal; cbn [INR]; lra|].
  rewrite <- (seq_shift n 1), map_map. apply map_ext. intros k. f_equal. rewrite S_INR. lra.
Qed.
Definition between (lo step : R) (n : Z) : list R := map (fun k => lo + INR k * (step / IZR n)) (seq 1 (Z.to_nat (n - 1))).
Fixpoint with_subdivisions (n : Z) (step : R) (ticks : list R) : list (R * bool) :=
  match ticks with
  | [] => []
  | [t] => [(t, true)]
  | t :: r => (t, true) :: map (fun v => (v, false)) (between t step n) ++ with_subdivisions n step r
  end.
Lemma axis_lines_spec ticks place m b n d step seg : (forall v, place v = m * v + b) -> (0 < n)%Z -> d = m * (step / IZR n) ->
  axis_lines (A := arithR) ticks place (Z.to_nat (n - 1)) d seg = map (fun vb => seg (place (fst vb)) (snd vb)) (with_subdivisions n step ticks).
Proof.
  intros Hp Hn Hd. induction ticks as [|t r IH]; [reflexivity|]. cbn [axis_lines with_subdivisions]. destruct r as [|t' r]; [reflexivity|].
  rewrite IH. cbn [map fst snd app]. f_equal. rewrite map_app. f_equal. rewrite subdivide_spec. unfold between. rewrite !map_map. apply map_ext. intros k. cbn [fst snd]. f_equal. rewrite !Hp, Hd. lra.
Qed.
Theorem C56_grid_lines : forall (g : grid (A := arithR)) x0 x1 xr y0 y1 yr, x_ticks g = x0 :: x1 :: xr -> y_ticks g = y0 :: y1 :: yr -> (0 < x_div g)%Z -> (0 < y_div g)%Z ->
  grid_lines (A := arithR) g =
    map (fun vb => ((px g (fst vb), py g (last (y_ticks g) 0)), (px g (fst vb), py g y0), snd vb)) (with_subdivisions (x_div g) (x1 - x0) (x_ticks g)) ++
    map (fun vb => ((px g x0, py g (fst vb)), (px g (last (x_ticks g) 0), py g (fst vb)), snd vb)) (with_subdivisions (y_div g) (y1 - y0) (y_ticks g)).
Proof.
  intros g x0 x1 xr y0 y1 yr Ex Ey Hx Hy. unfold grid_lines. rewrite (last_default (x_ticks g) 0 x0), (last_default (y_ticks g) 0 y0) by (rewrite ?Ex, ?Ey; discriminate). rewrite Ex at 1. rewrite Ey at 1.
  cbv zeta. f_equal.
  - apply (axis_lines_spec (x_ticks g) (px g) (xm g) (xb g) (x_div g) _ (x1 - x0)); [reflexivity|exact Hx|]. unfold wd, axis_div. rewrite Ex. replace (0 <? x_div g)%Z with true by (symmetry; now apply Z.ltb_lt). reflexivity.
  - apply (axis_lines_spec (y_ticks g) (py g) (ym g) (yb g) (y_div g) _ (y1 - y0)); [reflexivity|exact Hy|]. unfold ht, axis_div. rewrite Ey. replace (0 <? y_div g)%Z with true by (symmetry; now apply Z.ltb_lt). reflexivity.
Qed.
Print Assumptions C56_grid_lines.

(** A plot joins the points of the function at count + 1 evenly spaced values,
    from the first to the last value given. *)
Lemma plot_loop_spec g fnc delta : forall n x, let P v := (px (A := arithR) g v, py (A := arithR) g (fnc v)) in
  plot_loop (A := arithR) g fnc delta n (x + delta) (P x) (P (x + delta)) =
    (map (fun i => (P (x + INR i * delta), P (x + INR (S i) * delta))) (seq 0 n), map (fun i => x + INR (S (S i)) * delta) (seq 0 n)).
Proof.
  intros n. induction n as [|n IH]; intros x P; [reflexivity|]. cbn [plot_loop]. to_R. cbv zeta. specialize (IH (x + delta)). cbv zeta in IH. unfold P. rewrite IH.
  change (seq 0 (S n)) with (0%nat :: seq 1 n). cbn [map]. rewrite <- seq_shift, !map_map.
  f_equal.
  - f_equal; [replace (x + INR 0 * delta) with x by (cbn; lra); replace (x + INR 1 * delta) with (x + delta) by (cbn; lra); reflexivity|].
    apply map_ext. intros i. rewrite !S_INR. replace (x + delta + INR i * delta) with (x + (INR i + 1) * delta) by lra. replace (x + delta + (INR i + 1) * delta) with (x + (INR i + 1 + 1) * delta) by lra. reflexivity.
  - f_equal; [cbn [INR]; lra|]. apply map_ext. intros i. rewrite !S_INR. lra.
Qed.
Lemma plot_spec g fnc xmin xmax count : (0 < count)%Z -> let delta := (xmax - xmin) / IZR count in let P v := (px (A := arithR) g v, py (A := arithR) g (fnc v)) in
  plot (A := arithR) g xmin xmax count fnc =
    (map (fun i => (P (xmin + INR i * delta), P (xmin + INR (S i) * delta))) (seq 0 (Z.to_nat count)), xmin :: xmin + delta :: map (fun i => xmin + INR (S (S i)) * delta) (seq 0 (Z.to_nat count))).
Proof.
  intros H delta P. unfold plot. replace (0 <? count)%Z with true by (symmetry; now apply Z.ltb_lt). cbv zeta.
  exact (f_equal (fun p => let '(l, c) := p in (l, xmin :: xmin + delta :: c)) (plot_loop_spec g fnc delta (Z.to_nat count) xmin)).
Qed.
Theorem C56_plot : forall g xmin xmax count fnc, (0 < count)%Z ->
  let at_ i := xmin + INR i * ((xmax - xmin) / IZR count) in
  fst (plot (A := arithR) g xmin xmax count fnc) =
    map (fun i => ((px g (at_ i), py g (fnc (at_ i))), (px g (at_ (S i)), py g (fnc (at_ (S i)))))) (seq 0 (Z.to_nat count)) /\
  at_ 0%nat = xmin /\ at_ (Z.to_nat count) = xmax.
Proof.
  intros g xmin xmax count fnc H at_. split; [|split].
  - rewrite plot_spec by exact H. reflexivity.
  - unfold at_. cbn. lra.
  - unfold at_. rewrite INR_IZR_INZ, Z2Nat.id by lia. field. apply not_0_IZR. lia.
Qed.
Print Assumptions C56_plot.
(** The function is asked for a value beyond the end of the range. *)
Theorem C56_range_refuted : forall g fnc xmin xmax count, xmin < xmax -> (0 < count)%Z ->
  exists v, In v (snd (plot (A := arithR) g xmin xmax count fnc)) /\ xmax < v.
Proof.
  intros g fnc xmin xmax count H Hc. rewrite plot_spec by exact Hc. cbn [snd].
  assert (C : 0 < IZR count) by now apply IZR_lt. assert (D : 0 < (xmax - xmin) / IZR count) by (apply Rdiv_lt_0_compat; lra).
  exists (xmin + INR (S (Z.to_nat count)) * ((xmax - xmin) / IZR count)). split.
  - right. right. apply in_map_iff. exists (Z.to_nat count - 1)%nat. split; [f_equal; f_equal; f_equal; lia|]. apply in_seq. lia.
  - rewrite S_INR, INR_IZR_INZ, Z2Nat.id by lia. replace (xmin + (IZR count + 1) * ((xmax - xmin) / IZR count)) with (xmax + (xmax - xmin) / IZR count) by (field; lra). lra.
Qed.
Print Assumptions C56_range_refuted.
Example C56_ex : with_subdivisions 2 4 [0; 4; 8] = [(0, true); (0 + 1 * (4 / 2), false); (4, true); (4 + 1 * (4 / 2), false); (8, true)].
Proof. reflexivity. Qed.
