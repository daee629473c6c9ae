(** C41: the W array of a UTF-8 font, read by the rules of PDF. *)
From Coq Require Import String.
From Verif Require Import Base KeyMap CidSpec CidModel CidProofs.
Open Scope Z_scope.
Notation length := List.length.

(** For every width table and every set of used characters: the code never
    panics, the text it writes parses as a W array, no character is listed
    twice, and the characters listed are exactly those from 1 to [last] that
    have a width in the table and are used (or below 256), each with the width
    of the table (65535 stands for width 0). *)
Theorem C41_widths_array : forall (cw : list Z) (used : Z -> Z) (last : Z),
  0 <= last < Z.of_nat (length cw) -> Forall (fun w => 0 <= w) cw ->
  exists line L, w_line cw used last = Ret line /\ w_entry line L /\ NoDup (map fst L) /\
    forall c w, In (c, w) L <->
      1 <= c <= last /\ exists x, nth_error cw (Z.to_nat c) = Some x /\ x <> 0 /\ (c <= 255 \/ used c <> 0) /\
        w = (if x =? 65535 then 0 else x).
Proof.
  intros cw used last Hl Hw. destruct (w_line_spec cw used last Hl Hw) as (line & E & W).
  exists line, (emitted cw used (Z.to_nat last) 1). split; [exact E|]. split; [exact W|]. split; [apply emitted_nodup; lia|].
  intros c w. rewrite emitted_in by lia. unfold cid_width. destruct (nth_error cw (Z.to_nat c)) as [x|].
  - destruct (Z.eqb_spec x 0) as [->|Hx].
    + split; [intros [_ H]; discriminate|]. intros (_ & x & [= <-] & H & _). easy.
    + destruct (Z.ltb_spec 255 c), (Z.eqb_spec (used c) 0); cbn [andb];
        (split; [intros [H1 [= H2]]; (split; [lia|exists x; repeat split; auto; lia])
                |intros (H1 & y & [= <-] & _ & H2 & ->); split; [lia|try reflexivity; lia]]).
  - split; [intros [_ H]; discriminate|]. intros (_ & x & H & _). discriminate.
Qed.
(** so the width a reader finds for a used character is the width of the table *)
Corollary C41_width_found : forall (cw : list Z) (used : Z -> Z) (last : Z),
  0 <= last < Z.of_nat (length cw) -> Forall (fun w => 0 <= w) cw ->
  exists line L, w_line cw used last = Ret line /\ w_entry line L /\
    forall c x, 1 <= c <= last -> used c <> 0 -> nth_error cw (Z.to_nat c) = Some x -> x <> 0 -> x <> 65535 ->
      forall w, In (c, w) L <-> w = x.
Proof.
  intros cw used last Hl Hw. destruct (C41_widths_array cw used last Hl Hw) as (line & L & E & W & _ & I).
  exists line, L. split; [exact E|]. split; [exact W|]. intros c x Hc Hu Hx H0 H1 w. rewrite I. split.
  - intros (_ & y & Hy & _ & _ & ->). rewrite Hx in Hy. injection Hy as <-. now destruct (Z.eqb_spec x 65535).
  - intros ->. split; [exact Hc|]. exists x. repeat split; auto. now destruct (Z.eqb_spec x 65535).
Qed.

Definition cw_ex : list Z :=
  [500;600;600;600;700;700;65535;0;800;700;700;300;300;300;300;5] ++ repeat 0 300 ++ [42;43].
Definition used_ex (c : Z) : Z := if c =? 317 then 317 else 0.
Example C41_example :
  w_line cw_ex used_ex 317 =
  Ret (bs "/W [ 1 3 600 4 [ 700 700 0 ]" ++ [10] ++ bs " 8 [ 800 700 700 ]" ++ [10] ++ bs " 11 14 300 15 15 5 317 317 43 ]").
Proof. vm_compute. reflexivity. Qed.
Example C41_hypotheses : 0 <= 317 < Z.of_nat (length cw_ex) /\ Forall (fun w => 0 <= w) cw_ex.
Proof. split; [vm_compute; split; congruence|]. apply Forall_app. split; [repeat constructor; lia|]. apply Forall_app. split; [|repeat constructor; lia]. apply Forall_forall. intros x H. apply repeat_spec in H. lia. Qed.
Print Assumptions C41_widths_array.
