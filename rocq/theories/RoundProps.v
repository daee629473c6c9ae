(** C67, the rounding: the width computed in binary64 arithmetic is the nearest integer. *)
From Coq Require Import Reals Lra.
From Flocq Require Import Core Relative.
From Coq Require Import ZArith Lia.
Open Scope R_scope.

(** a number rounded to binary64, to nearest even *)
Definition fl (x : R) : R := round radix2 (FLT_exp (-1074) 53) ZnearestE x.
(** utf8fontfile.go:477-495 [parseTables], line 493, and line 854: int(math.Round(1000.0/float64(em) * float64(v))); math.Round adds one half
    exactly and rounds down, for numbers that are not negative *)
Definition go_width (em v : Z) : Z := Zfloor (fl (fl (1000 / IZR em) * IZR v) + / 2).
(** utf8fontfile.go:335-353 [parseHEADTable]: int(float64(v) * scale) *)
Definition go_trunc (em v : Z) : Z := Ztrunc (fl (IZR v * fl (1000 / IZR em))).

Lemma fl_err x : bpow radix2 (-20) <= Rabs x -> Rabs (fl x - x) <= bpow radix2 (-53) * Rabs x.
Proof.
  intros H. replace (bpow radix2 (-53)) with (/ 2 * bpow radix2 (-53 + 1)).
  - apply (relative_error_N_FLT radix2 (-1074) 53 ltac:(lia)). apply Rle_trans with (2 := H). apply bpow_le. lia.
  - change (bpow radix2 (-53 + 1)) with (/ 4503599627370496). change (bpow radix2 (-53)) with (/ 9007199254740992). lra.
Qed.
Lemma fl_0 : fl 0 = 0. Proof. apply round_0. apply valid_rnd_N. Qed.

Section Em.
  Variables (em v : Z).
  Hypothesis Hem : (16 <= em <= 16384)%Z.
  Lemma em_bounds : 16 <= IZR em <= 16384.
  Proof. split; apply IZR_le; lia. Qed.
  Lemma scale_bounds : / 17 <= 1000 / IZR em <= 63.
  Proof.
    pose proof em_bounds. assert (0 < / IZR em) by (apply Rinv_0_lt_compat; lra). assert (IZR em * / IZR em = 1) by (apply Rinv_r; lra). unfold Rdiv. split; nra.
  Qed.
  Lemma product_err : (Z.abs v <= 32768)%Z -> Rabs (fl (fl (1000 / IZR em) * IZR v) - 1000 / IZR em * IZR v) <= bpow radix2 (-30).
  Proof.
    intros Hv. pose proof scale_bounds as S. set (s := 1000 / IZR em) in *. destruct (Z.eq_dec v 0) as [->|N].
    - rewrite !Rmult_0_r, fl_0, Rminus_0_r, Rabs_R0. apply bpow_ge_0.
    - assert (V : 1 <= Rabs (IZR v) <= 32768). { rewrite <- abs_IZR. split; apply IZR_le; lia. }
      assert (E1 := fl_err s). rewrite (Rabs_pos_eq s) in E1 by lra. assert (B20 : bpow radix2 (-20) <= / 1000000). { change (bpow radix2 (-20)) with (/ 1048576). lra. }
      specialize (E1 ltac:(lra)). change (bpow radix2 (-53)) with (/ 9007199254740992) in E1. change (bpow radix2 (-30)) with (/ 1073741824).
      apply Rabs_le_inv in E1. set (t := fl s) in *. assert (T : / 18 <= t <= 64) by lra.
      assert (E2 := fl_err (t * IZR v)). rewrite Rabs_mult, (Rabs_pos_eq t) in E2 by lra. specialize (E2 ltac:(nra)). change (bpow radix2 (-53)) with (/ 9007199254740992) in E2.
      set (p := fl (t * IZR v)) in *. replace (p - s * IZR v) with ((p - t * IZR v) + (t - s) * IZR v) by ring.
      apply Rle_trans with (1 := Rabs_triang _ _). assert (E3 : Rabs ((t - s) * IZR v) <= / 9007199254740992 * s * 32768).
      { rewrite Rabs_mult. apply Rmult_le_compat; [apply Rabs_pos|apply Rabs_pos| |lra]. apply Rabs_le. lra. }
      assert (E4 : t * Rabs (IZR v) <= 64 * 32768) by (apply Rmult_le_compat; lra). lra.
  Qed.
End Em.

(** The stored width is a nearest integer to 1000 v / em, for all units per em a font may have. *)
Theorem C67_nearest_width : forall em v : Z, (16 <= em <= 16384)%Z -> (0 <= v <= 32767)%Z -> (2 * Z.abs (em * go_width em v - 1000 * v) <= em)%Z.
Proof.
  intros em v Hem Hv. pose proof (product_err em v Hem ltac:(lia)) as E. pose proof (em_bounds em Hem) as B. unfold go_width. set (p := fl (fl (1000 / IZR em) * IZR v)) in *.
  pose proof (Zfloor_lb (p + / 2)) as F1. pose proof (Zfloor_ub (p + / 2)) as F2. set (w := Zfloor (p + / 2)) in *. change (bpow radix2 (-30)) with (/ 1073741824) in E. apply Rabs_le_inv in E.
  assert (X : IZR em * (1000 / IZR em * IZR v) = 1000 * IZR v) by (field; lra). set (x := 1000 / IZR em * IZR v) in *.
  assert (H : (-(em + 1) < 2 * (em * w - 1000 * v) < em + 1)%Z).
  { split; apply lt_IZR; rewrite ?opp_IZR, ?plus_IZR, ?mult_IZR, ?minus_IZR, ?mult_IZR; rewrite <- X; nra. }
  lia.
Qed.
Print Assumptions C67_nearest_width.
(** The other metrics are rounded towards zero, or to one less than that when they are integers in thousandths. *)
Theorem C69_truncated : forall em v : Z, (16 <= em <= 16384)%Z -> (0 <= v <= 32767)%Z ->
  (em * go_trunc em v <= 1000 * v <= em * go_trunc em v + em)%Z /\ (em * go_trunc em (- v) - em <= 1000 * (- v) <= em * go_trunc em (- v))%Z.
Proof.
  intros em v Hem Hv. pose proof (em_bounds em Hem) as B. pose proof (scale_bounds em Hem) as S.
  assert (V : 0 <= IZR v) by (apply IZR_le; lia). assert (VR : Valid_rnd ZnearestE) by apply valid_rnd_N. assert (VE : Valid_exp (FLT_exp (-1074) 53)) by (apply FLT_exp_valid; reflexivity).
  assert (P0 : forall x, 0 <= x -> 0 <= fl x) by (intros x Hx; rewrite <- fl_0; apply round_le; auto).
  assert (N0 : forall x, x <= 0 -> fl x <= 0) by (intros x Hx; rewrite <- fl_0; apply round_le; auto).
  assert (T : 0 <= fl (1000 / IZR em)) by (apply P0; lra). unfold go_trunc. split.
  - pose proof (product_err em v Hem ltac:(lia)) as E. rewrite (Rmult_comm (IZR v)). assert (P : 0 <= fl (fl (1000 / IZR em) * IZR v)) by (apply P0, Rmult_le_pos; lra). set (p := fl (fl (1000 / IZR em) * IZR v)) in *.
    rewrite Ztrunc_floor by exact P. pose proof (Zfloor_lb p) as F1. pose proof (Zfloor_ub p) as F2. set (w := Zfloor p) in *. change (bpow radix2 (-30)) with (/ 1073741824) in E. apply Rabs_le_inv in E.
    assert (X : IZR em * (1000 / IZR em * IZR v) = 1000 * IZR v) by (field; lra). set (x := 1000 / IZR em * IZR v) in *.
    assert (H : (em * w < 1000 * v + 1 /\ 1000 * v < em * w + em + 1)%Z) by (split; apply lt_IZR; rewrite ?plus_IZR, ?mult_IZR; rewrite <- X; nra). lia.
  - pose proof (product_err em (- v) Hem ltac:(lia)) as E. rewrite (Rmult_comm (IZR (- v))). assert (VN : IZR (- v) <= 0) by (rewrite opp_IZR; lra).
    assert (P : fl (fl (1000 / IZR em) * IZR (- v)) <= 0) by (apply N0; nra). set (p := fl (fl (1000 / IZR em) * IZR (- v))) in *.
    rewrite Ztrunc_ceil by exact P. unfold Zceil. pose proof (Zfloor_lb (- p)) as F1. pose proof (Zfloor_ub (- p)) as F2. set (w := Zfloor (- p)) in *. change (bpow radix2 (-30)) with (/ 1073741824) in E. apply Rabs_le_inv in E.
    assert (X : IZR em * (1000 / IZR em * IZR (- v)) = 1000 * IZR (- v)) by (field; lra). set (x := 1000 / IZR em * IZR (- v)) in *.
    assert (H : (em * w < 1000 * v + 1 /\ 1000 * v < em * w + em + 1)%Z).
    { assert (X' : 1000 * IZR v = - (IZR em * x)) by (rewrite X, opp_IZR; lra). split; apply lt_IZR; rewrite ?plus_IZR, ?mult_IZR; rewrite X'; nra. } lia.
Qed.
Print Assumptions C69_truncated.
