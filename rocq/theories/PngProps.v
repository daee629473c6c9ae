(** C36: PNG images. *)
From Verif Require Import Base TextModel PngSpec PngModel.
From Coq Require Import String.
Open Scope Z_scope.
Notation length := List.length. Notation concat := List.concat.

(** ** Bytes at a position *)
Lemma byte_at_app a x t : byte_at (a ++ x :: t) (Z.of_nat (length a)) = Ret x.
Proof.
  unfold byte_at. rewrite (proj2 (Z.ltb_ge _ _)) by lia. rewrite Nat2Z.id, nth_error_app2, Nat.sub_diag by lia. reflexivity.
Qed.
Lemma byte_at_app' a x t i : i = Z.of_nat (length a) -> byte_at (a ++ x :: t) i = Ret x.
Proof. intros ->. apply byte_at_app. Qed.

(** ** Separating the channels *)
(** pixels of a row *)
Definition px_ok (ch : nat) (row : list bytes) : Prop := Forall (fun p => length p = ch) row.
Lemma byte_at_off pre a x t i : i = Z.of_nat (length pre) + Z.of_nat (length a) -> byte_at (pre ++ a ++ x :: t) i = Ret x.
Proof. intros ->. rewrite app_assoc. apply byte_at_app'. rewrite app_length. lia. Qed.
Lemma byte_at_1 pre a x t : byte_at (pre ++ a :: x :: t) (Z.of_nat (length pre) + 1) = Ret x.
Proof. exact (byte_at_off pre [a] x t _ eq_refl). Qed.
Lemma byte_at_2 pre a b x t : byte_at (pre ++ a :: b :: x :: t) (Z.of_nat (length pre) + 2) = Ret x.
Proof. exact (byte_at_off pre [a; b] x t _ eq_refl). Qed.
Lemma byte_at_3 pre a b c x t : byte_at (pre ++ a :: b :: c :: x :: t) (Z.of_nat (length pre) + 3) = Ret x.
Proof. exact (byte_at_off pre [a; b; c] x t _ eq_refl). Qed.
Lemma gray_cols_ok : forall row pre post co al, px_ok 2 row ->
  gray_cols (length row) (pre ++ concat row ++ post) (Z.of_nat (length pre)) co al = Ret (co ++ flat_map (firstn 1) row, al ++ flat_map (skipn 1) row).
Proof.
  induction row as [|p row IH]; intros pre post co al H; [cbn; now rewrite !app_nil_r|]. inversion H as [|? ? Hp Hr]; subst.
  destruct p as [|c [|a [|]]]; try discriminate Hp. cbn [length gray_cols concat app].
  rewrite byte_at_app. cbn [obind]. rewrite byte_at_1. cbn [obind].
  replace (pre ++ c :: a :: concat row ++ post) with ((pre ++ [c; a]) ++ concat row ++ post) by (now rewrite <- app_assoc).
  replace (Z.of_nat (length pre) + 2) with (Z.of_nat (length (pre ++ [c; a]))) by (rewrite app_length; cbn; lia).
  rewrite IH by exact Hr. cbn [flat_map firstn skipn]. now rewrite <- !app_assoc.
Qed.
Lemma rgb_cols_ok : forall row pre post co al, px_ok 4 row ->
  rgb_cols (length row) (pre ++ concat row ++ post) (Z.of_nat (length pre)) co al = Ret (co ++ flat_map (firstn 3) row, al ++ flat_map (skipn 3) row).
Proof.
  induction row as [|p row IH]; intros pre post co al H; [cbn; now rewrite !app_nil_r|]. inversion H as [|? ? Hp Hr]; subst.
  destruct p as [|r [|g [|b [|a [|]]]]]; try discriminate Hp. cbn [length rgb_cols concat app].
  rewrite byte_at_app. cbn [obind]. rewrite byte_at_1. cbn [obind].
  rewrite byte_at_2. cbn [obind]. rewrite byte_at_3. cbn [obind].
  replace (pre ++ r :: g :: b :: a :: concat row ++ post) with ((pre ++ [r; g; b; a]) ++ concat row ++ post) by (now rewrite <- app_assoc).
  replace (Z.of_nat (length pre) + 4) with (Z.of_nat (length (pre ++ [r; g; b; a]))) by (rewrite app_length; cbn; lia).
  rewrite IH by exact Hr. cbn [flat_map firstn skipn]. now rewrite <- !app_assoc.
Qed.
Lemma concat_len ch : forall row, px_ok ch row -> length (concat row) = (ch * length row)%nat.
Proof. induction 1 as [|p row Hp _ IH]; [cbn; lia|]. cbn [concat length]. rewrite app_length, Hp, IH. lia. Qed.
(** the rows of an image as pixels: filter type and pixels *)
Definition to_rows (l : list (Z * list bytes)) : list (Z * bytes) := map (fun r => (fst r, concat (snd r))) l.
Lemma sep_ok cols ch w : (forall row pre post co al, px_ok ch row ->
    cols (length row) (pre ++ concat row ++ post) (Z.of_nat (length pre)) co al = Ret (co ++ flat_map (firstn (ch - 1)) row, al ++ flat_map (skipn (ch - 1)) row)) ->
  forall l pre i co al, Forall (fun r => length (snd r) = w /\ px_ok ch (snd r)) l -> Z.of_nat (length pre) = (1 + Z.of_nat ch * Z.of_nat w) * i ->
  sep_rows (length l) i cols (Z.of_nat ch * Z.of_nat w) w (pre ++ stream (to_rows l)) co al =
  Ret (co ++ stream (map (fun r => (fst r, flat_map (firstn (ch - 1)) (snd r))) l), al ++ stream (map (fun r => (fst r, flat_map (skipn (ch - 1)) (snd r))) l)).
Proof.
  intros Hc. induction l as [|[ft row] l IH]; intros pre i co al H Hi; [cbn; now rewrite !app_nil_r|]. inversion H as [|? ? [Hw Hp] Hr]; subst. cbn [fst snd] in *.
  change (stream (to_rows ((ft, row) :: l))) with (ft :: concat row ++ stream (to_rows l)). cbn [length sep_rows]. rewrite byte_at_app' by lia. cbn [obind].
  replace (pre ++ ft :: concat row ++ stream (to_rows l)) with ((pre ++ [ft]) ++ concat row ++ stream (to_rows l)) by (rewrite <- app_assoc; reflexivity).
  replace ((1 + Z.of_nat ch * Z.of_nat (length row)) * i + 1) with (Z.of_nat (length (pre ++ [ft]))) by (rewrite app_length, Nat2Z.inj_add, Hi; reflexivity).
  rewrite Hc by exact Hp. cbn [obind].
  replace ((pre ++ [ft]) ++ concat row ++ stream (to_rows l)) with (((pre ++ [ft]) ++ concat row) ++ stream (to_rows l)) by (now rewrite <- app_assoc).
  rewrite IH; [|exact Hr|rewrite !app_length, (concat_len ch), !Nat2Z.inj_add, Hi, Nat2Z.inj_mul by exact Hp; cbn [length]; ring]. rewrite <- !app_assoc. reflexivity.
Qed.
Lemma separate_ok ct w l : ct = 4 \/ ct = 6 ->
  let ch := if ct =? 4 then 2%nat else 4%nat in
  Forall (fun r => length (snd r) = w /\ px_ok ch (snd r)) l ->
  separate ct (Z.of_nat w) (Z.of_nat (length l)) (stream (to_rows l)) =
  Ret (stream (map (fun r => (fst r, flat_map (firstn (ch - 1)) (snd r))) l), stream (map (fun r => (fst r, flat_map (skipn (ch - 1)) (snd r))) l)).
Proof.
  intros C ch H. unfold separate. rewrite !Nat2Z.id. destruct C as [-> | ->]; cbn [Z.eqb Pos.eqb] in *; subst ch.
  - exact (sep_ok gray_cols 2 w (fun row pre post co al => gray_cols_ok row pre post co al) l [] 0 [] [] H (eq_sym (Z.mul_0_r _))).
  - exact (sep_ok rgb_cols 4 w (fun row pre post co al => rgb_cols_ok row pre post co al) l [] 0 [] [] H (eq_sym (Z.mul_0_r _))).
Qed.

(** ** Undoing the filters of the separated rows *)
Section Take.
  Variables (ch lo m : nat).
  Hypothesis Hm : (0 < m)%nat.
  Hypothesis Hch : (lo + m <= ch)%nat.
  Definition take (p : bytes) : bytes := firstn m (skipn lo p).
  Lemma take_len p : length p = ch -> length (take p) = m.
  Proof. intros H. unfold take. rewrite firstn_length, skipn_length. lia. Qed.
  Lemma nth_take p j : (j < m)%nat -> nth j (take p) 0 = nth (lo + j) p 0.
  Proof. 
    intros Hj. unfold take. revert p. assert (E : forall (l : bytes) n i, (i < n)%nat -> nth i (firstn n l) 0 = nth i l 0).
    { induction l as [|x l IH]; intros [|n] [|i] Hi; cbn; try lia; try reflexivity. apply IH. lia. }
    intros p. rewrite E by exact Hj. clear. revert p. induction lo as [|n IH]; intros p; [reflexivity|]. destruct p; [cbn; destruct j; reflexivity|apply IH].
  Qed.
  Lemma nth_sel : forall row k j, px_ok ch row -> (j < m)%nat -> nth (m * k + j) (flat_map take row) 0 = nth (ch * k + lo + j) (concat row) 0.
  Proof.
    induction row as [|p row IH]; intros k j H Hj; [cbn; destruct (m * k + j)%nat, (ch * k + lo + j)%nat; reflexivity|]. pose proof (Forall_inv H) as Hp. pose proof (Forall_inv_tail H) as Hr. cbn beta in Hp.
    cbn [flat_map concat]. destruct k as [|k].
    - rewrite !Nat.mul_0_r. cbn [Nat.add]. rewrite !app_nth1 by (rewrite ?take_len; lia). now apply nth_take.
    - rewrite !Nat.mul_succ_r. rewrite !app_nth2 by (rewrite ?take_len; lia). rewrite take_len by exact Hp.
      replace (m * k + m + j - m)%nat with (m * k + j)%nat by lia. rewrite IH by assumption. f_equal. lia.
  Qed.
  Lemma left_sel row k j : px_ok ch row -> (j < m)%nat -> at_left m (flat_map take row) (m * k + j) = at_left ch (concat row) (ch * k + lo + j).
  Proof.
    intros H Hj. unfold at_left. destruct k as [|k].
    - rewrite !Nat.mul_0_r. cbn [Nat.add]. rewrite !(proj2 (Nat.ltb_lt _ _)) by lia. reflexivity.
    - rewrite !Nat.mul_succ_r. rewrite !(proj2 (Nat.ltb_ge _ _)) by lia. replace (m * k + m + j - m)%nat with (m * k + j)%nat by lia. replace (ch * k + ch + lo + j - ch)%nat with (ch * k + lo + j)%nat by lia. now apply nth_sel.
  Qed.
  Lemma sel_len : forall row, px_ok ch row -> length (flat_map take row) = (m * length row)%nat.
  Proof. induction 1 as [|p row Hp _ IH]; [cbn; lia|]. cbn [flat_map length]. rewrite app_length, take_len, IH by exact Hp. lia. Qed.
  Lemma row_sel ft pp xp rp : px_ok ch pp -> px_ok ch xp -> px_ok ch rp -> row_means ch ft (concat pp) (concat xp) (concat rp) ->
    row_means m ft (flat_map take pp) (flat_map take xp) (flat_map take rp).
  Proof.
    intros Hp Hx Hr [L E]. rewrite !(concat_len ch) in L by assumption. assert (L' : length rp = length xp) by (apply (proj1 (Nat.mul_cancel_l (length rp) (length xp) ch ltac:(lia))); exact L).
    split; [rewrite !sel_len by assumption; now rewrite L'|]. intros i Hi. rewrite sel_len in Hi by exact Hx.
    pose proof (Nat.div_mod i m ltac:(lia)) as D. pose proof (Nat.mod_upper_bound i m ltac:(lia)) as B. set (k := (i / m)%nat) in *. set (j := (i mod m)%nat) in *. clearbody k j. subst i.
    rewrite !left_sel, !nth_sel by assumption. apply E. rewrite (concat_len ch) by exact Hx.
    assert (Hk : (k < length xp)%nat) by (destruct (le_lt_dec (length xp) k) as [G|G]; [pose proof (Nat.mul_le_mono_l _ _ m G); lia|exact G]).
    pose proof (Nat.mul_le_mono_l (S k) (length xp) ch Hk) as G. rewrite Nat.mul_succ_r in G. lia.
  Qed.
  Lemma rows_sel : forall l pp rps, px_ok ch pp -> Forall (fun r => px_ok ch (snd r)) l -> Forall (px_ok ch) rps -> rows_mean ch (concat pp) (to_rows l) (map (@concat Z) rps) ->
    rows_mean m (flat_map take pp) (map (fun r => (fst r, flat_map take (snd r))) l) (map (flat_map take) rps).
  Proof.
    induction l as [|[ft xp] l IH]; intros pp rps Hp Hl Hr R; destruct rps as [|rp rps]; cbn in R; inversion R; subst; cbn; [constructor|].
    pose proof (Forall_inv Hl) as Hl1. pose proof (Forall_inv_tail Hl) as Hl2. pose proof (Forall_inv Hr) as Hr1. pose proof (Forall_inv_tail Hr) as Hr2. constructor; [now apply row_sel|]. now apply IH.
  Qed.
End Take.

(** ** The chunks *)
Lemma read_be32_ok n r : 0 <= n < 2147483648 -> read_be32 (be32 n ++ r) = (n, r, false).
Proof.
  intros H. unfold be32. cbn [app read_be32]. do 2 f_equal. unfold signed32.
  assert (E : (((n / 16777216) mod 256 * 256 + (n / 65536) mod 256) * 256 + (n / 256) mod 256) * 256 + n mod 256 = n) by lia.
  rewrite E. rewrite (proj2 (Z.ltb_lt _ _)) by lia. reflexivity.
Qed.
Lemma firstn_exact {A} (a b : list A) n : length a = n -> firstn n (a ++ b) = a.
Proof. intros <-. rewrite firstn_app, firstn_all, Nat.sub_diag. cbn. apply app_nil_r. Qed.
Lemma skipn_exact {A} (a b : list A) n : length a = n -> skipn n (a ++ b) = b.
Proof. intros <-. rewrite skipn_app, skipn_all, Nat.sub_diag. reflexivity. Qed.
Lemma next_ok (a b : bytes) n : n = Z.of_nat (length a) -> next n (a ++ b) = Ret (a, b).
Proof. intros ->. unfold next. rewrite (proj2 (Z.ltb_ge _ _)) by lia. rewrite Nat2Z.id. now rewrite firstn_exact, skipn_exact. Qed.
(** what a chunk changes *)
Definition phys (readdpi : bool) (d : bytes) (old : option (bool * Z)) : option (bool * Z) :=
  let x := fst (fst (read_be32 d)) in let y := fst (fst (read_be32 (skipn 4 d))) in
  if (x =? y) && readdpi then Some (nth 8 d 0 =? 1, x) else old.
Definition key (ct : Z) (d : bytes) (old : list Z) : list Z :=
  if ct =? 0 then [nth 1 d 0] else if ct =? 2 then [nth 1 d 0; nth 3 d 0; nth 5 d 0] else match index_of 0 d 0 with Some p => [p] | None => old end.
Definition step (readdpi : bool) (ct : Z) (s : scan) (c : chunk) : scan :=
  if beqb (c_type c) (bs "PLTE") then {| s_pal := c_data c; s_trns := s_trns s; s_data := s_data s; s_dpi := s_dpi s; s_err := s_err s |}
  else if beqb (c_type c) (bs "tRNS") then {| s_pal := s_pal s; s_trns := key ct (c_data c) (s_trns s); s_data := s_data s; s_dpi := s_dpi s; s_err := s_err s |}
  else if beqb (c_type c) (bs "IDAT") then {| s_pal := s_pal s; s_trns := s_trns s; s_data := s_data s ++ c_data c; s_dpi := s_dpi s; s_err := s_err s |}
  else if beqb (c_type c) (bs "pHYs") then {| s_pal := s_pal s; s_trns := s_trns s; s_data := s_data s; s_dpi := phys readdpi (c_data c) (s_dpi s); s_err := s_err s |}
  else s.
Lemma trns_ok ct d old : (ct = 0 -> length d = 2%nat) -> (ct = 2 -> length d = 6%nat) -> trns_of ct d old = Ret (key ct d old).
Proof.
  intros H0 H2. unfold trns_of, key. destruct (Z.eqb_spec ct 0) as [E|_].
  - specialize (H0 E). destruct d as [|a [|b [|]]]; try discriminate H0. reflexivity.
  - destruct (Z.eqb_spec ct 2) as [E|_]; [|destruct (index_of 0 d 0); reflexivity]. specialize (H2 E).
    destruct d as [|a [|b [|c [|e [|f [|g [|]]]]]]]; try discriminate H2. reflexivity.
Qed.
Lemma be32_len n : length (be32 n) = 4%nat. Proof. reflexivity. Qed.
Lemma one_ok readdpi ct c s r : chunk_ok ct c ->
  one_chunk readdpi ct (Z.of_nat (length (c_data c))) (c_type c) (c_data c ++ c_crc c ++ r) s = Ret (step readdpi ct s c, r, false).
Proof.
  intros (Lt & Lc & _ & Ne & Hp & Ht). unfold one_chunk, step.
  destruct (beqb (c_type c) (bs "PLTE")) eqn:E1; [rewrite next_ok by reflexivity; cbn [obind next4 snd]; now rewrite skipn_exact|].
  destruct (beqb (c_type c) (bs "tRNS")) eqn:E2.
  { apply beqb_eq in E2. destruct (Ht E2) as [H0 H2]. rewrite next_ok by reflexivity. cbn [obind]. rewrite trns_ok by assumption. cbn [obind next4 snd]. now rewrite skipn_exact. }
  destruct (beqb (c_type c) (bs "IDAT")) eqn:E3; [rewrite next_ok by reflexivity; cbn [obind next4 snd]; now rewrite skipn_exact|].
  rewrite (proj2 (beqb_neq _ _) Ne). destruct (beqb (c_type c) (bs "pHYs")) eqn:E5.
  - apply beqb_eq in E5. specialize (Hp E5). destruct (c_data c) as [|a0 [|a1 [|a2 [|a3 [|b0 [|b1 [|b2 [|b3 [|u [|]]]]]]]]]]; try discriminate Hp.
    cbn [app read_be32]. unfold phys. cbn [read_be32 skipn fst nth]. cbn [next4 snd]. rewrite skipn_exact by exact Lc. now rewrite !orb_false_r.
  - rewrite app_assoc, next_ok by (rewrite app_length; lia). cbn [obind]. reflexivity.
Qed.
Lemma scan_eta s : {| s_pal := s_pal s; s_trns := s_trns s; s_data := s_data s; s_dpi := s_dpi s; s_err := s_err s || false |} = s.
Proof. destruct s. cbn. now rewrite orb_false_r. Qed.
Lemma loop_ok readdpi ct : forall chunks fuel tail s, Forall (chunk_ok ct) chunks -> Forall (fun c => c_data c <> []) chunks -> (length chunks < fuel)%nat ->
  chunks_loop fuel readdpi ct (flat_map chunk_bytes chunks ++ be32 0 ++ bs "IEND" ++ tail) s = Ret (fold_left (step readdpi ct) chunks s).
Proof.
  induction chunks as [|c chunks IH]; intros fuel tail s H N L; destruct fuel as [|fuel]; [lia| |cbn in L; lia|].
  - cbn [flat_map app chunks_loop]. rewrite read_be32_ok by lia. cbn [next4]. rewrite firstn_exact, skipn_exact by reflexivity. rewrite scan_eta. reflexivity.
  - inversion H as [|? ? Hc Hr]; inversion N as [|? ? Nc Nr]; subst. cbn [flat_map chunks_loop]. unfold chunk_bytes at 1. rewrite <- !app_assoc.
    pose proof Hc as (Lt & _ & B & _). rewrite read_be32_ok by lia. unfold next4. rewrite firstn_exact, skipn_exact by exact Lt. rewrite scan_eta, one_ok by exact Hc. cbn [obind].
    rewrite (proj2 (Z.ltb_lt _ _)) by (destruct (c_data c); [easy|cbn; lia]). cbn [fold_left]. apply IH; [exact Hr|exact Nr|cbn in L; lia].
Qed.
Lemma steps_data readdpi ct : forall chunks s, s_data (fold_left (step readdpi ct) chunks s) = s_data s ++ concat (of_type (bs "IDAT") chunks).
Proof.
  induction chunks as [|c chunks IH]; intros s; [cbn; now rewrite app_nil_r|]. cbn [fold_left]. rewrite IH. unfold of_type. cbn [filter]. unfold step.
  destruct (beqb (c_type c) (bs "IDAT")) eqn:E.
  - apply beqb_eq in E. rewrite E. change (beqb (bs "IDAT") (bs "PLTE")) with false. change (beqb (bs "IDAT") (bs "tRNS")) with false. cbn [s_data map concat]. now rewrite <- app_assoc.
  - destruct (beqb (c_type c) (bs "PLTE")), (beqb (c_type c) (bs "tRNS")), (beqb (c_type c) (bs "pHYs")); reflexivity.
Qed.
Lemma steps_pal readdpi ct : forall chunks s, s_pal (fold_left (step readdpi ct) chunks s) = last (of_type (bs "PLTE") chunks) (s_pal s).
Proof.
  induction chunks as [|c chunks IH]; intros s; [reflexivity|]. cbn [fold_left]. rewrite IH. unfold of_type. cbn [filter]. unfold step.
  destruct (beqb (c_type c) (bs "PLTE")) eqn:E.
  - cbn [s_pal map]. generalize (map c_data (filter (fun c0 => beqb (c_type c0) (bs "PLTE")) chunks)) as l. intros l. destruct l as [|d l]; [reflexivity|]. revert d. induction l as [|e l IHl]; intros d; [reflexivity|]. exact (IHl e).
  - destruct (beqb (c_type c) (bs "tRNS")), (beqb (c_type c) (bs "IDAT")), (beqb (c_type c) (bs "pHYs")); reflexivity.
Qed.
Lemma steps_trns readdpi ct : forall chunks s, s_trns (fold_left (step readdpi ct) chunks s) = fold_left (fun o d => key ct d o) (of_type (bs "tRNS") chunks) (s_trns s).
Proof.
  induction chunks as [|c chunks IH]; intros s; [reflexivity|]. cbn [fold_left]. rewrite IH. unfold of_type. cbn [filter]. unfold step.
  destruct (beqb (c_type c) (bs "tRNS")) eqn:E.
  - apply beqb_eq in E. rewrite E. change (beqb (bs "tRNS") (bs "PLTE")) with false. reflexivity.
  - destruct (beqb (c_type c) (bs "PLTE")), (beqb (c_type c) (bs "IDAT")), (beqb (c_type c) (bs "pHYs")); reflexivity.
Qed.
Lemma steps_err readdpi ct : forall chunks s, s_err (fold_left (step readdpi ct) chunks s) = s_err s.
Proof.
  induction chunks as [|c chunks IH]; intros s; [reflexivity|]. cbn [fold_left]. rewrite IH. unfold step.
  destruct (beqb (c_type c) (bs "PLTE")), (beqb (c_type c) (bs "tRNS")), (beqb (c_type c) (bs "IDAT")), (beqb (c_type c) (bs "pHYs")); reflexivity.
Qed.

(** ** The header *)
Lemma chunks_short chunks : (length chunks <= length (flat_map chunk_bytes chunks))%nat.
Proof. induction chunks as [|c chunks IH]; [apply le_n|]. cbn [flat_map length]. rewrite app_length. assert (4 <= length (chunk_bytes c))%nat by (unfold chunk_bytes; rewrite app_length, be32_len; apply Nat.le_add_r). lia. Qed.
Lemma channels_space ct ch : channels ct = Some ch -> exists cs n, color_space ct = Some (cs, n).
Proof.
  unfold channels, color_space. destruct (Z.eqb_spec ct 0) as [->|]; [now eexists _, _|]. destruct (Z.eqb_spec ct 2) as [->|]; [now eexists _, _|].
  destruct (Z.eqb_spec ct 3) as [->|]; [now eexists _, _|]. destruct (Z.eqb_spec ct 4) as [->|]; [now eexists _, _|]. destruct (Z.eqb_spec ct 6) as [->|]; [now eexists _, _|discriminate].
Qed.
Section Parse.
  Variable inflate : bytes -> zres.
  Variable deflate : bytes -> bytes.
  Variable itoa : Z -> bytes.
  Notation parse := (parse_png inflate deflate itoa).
  Definition start_scan : scan := {| s_pal := []; s_trns := []; s_data := []; s_dpi := None; s_err := false |}.
  Lemma parse_ok readdpi w h depth ct hcrc chunks tail cs colors : 0 <= w < 2147483648 -> 0 <= h < 2147483648 -> depth <= 8 -> color_space ct = Some (cs, colors) ->
    length hcrc = 4%nat -> Forall (chunk_ok ct) chunks -> Forall (fun c => c_data c <> []) chunks ->
    parse readdpi (png_bytes w h depth ct hcrc chunks tail) =
    (let s := fold_left (step readdpi ct) chunks start_scan in
     let e := beqb cs (bs "Indexed") && (length (s_pal s) =? 0)%nat in
     let mk sm data := {| i_w := w; i_h := h; i_cs := cs; i_bpc := depth; i_dp := parms itoa colors depth w; i_pal := s_pal s; i_trns := s_trns s;
                          i_smask := sm; i_data := data; i_dpi := s_dpi s |} in
     if 4 <=? ct then
       match inflate (s_data s) with
       | ZNoReader => Panic
       | ZBroken => Ret (mk None [], true)
       | ZPlain data => obind (separate ct w h data) (fun '(co, al) => Ret (mk (Some (deflate al)) (deflate co), e))
       end
     else Ret (mk None (s_data s), e)).
  Proof.
    intros Hw Hh Hd C Hc K N. unfold parse_png, png_bytes. rewrite firstn_exact, skipn_exact by reflexivity. rewrite beqb_refl. cbn [negb].
    unfold chunk_bytes at 1. cbn [c_data c_type c_crc]. rewrite <- !app_assoc. rewrite skipn_exact by reflexivity. unfold next4 at 1. rewrite firstn_exact, skipn_exact by reflexivity. rewrite beqb_refl. cbn [negb].
    rewrite read_be32_ok by lia. rewrite read_be32_ok by lia. cbn [app read_byte]. rewrite C. rewrite (proj2 (Z.ltb_ge _ _)) by lia. cbn [orb Z.eqb negb].
    cbn [next4 snd]. rewrite skipn_exact by exact Hc.
    rewrite loop_ok; [|exact K|exact N|rewrite app_length; pose proof (chunks_short chunks); lia]. cbn [obind]. fold start_scan. rewrite steps_err. cbn [s_err start_scan orb]. reflexivity.
  Qed.
End Parse.

(** ** Existence of the decoded image *)
Lemma row_total ch ft prev xs : (0 < ch)%nat -> exists raw, row_means ch ft prev xs raw.
Proof.
  intros Hch. assert (G : forall n, (n <= length xs)%nat -> exists raw, length raw = n /\ forall i, (i < n)%nat -> nth i raw 0 = (nth i xs 0 + predicted ft (at_left ch raw i) (nth i prev 0) (at_left ch prev i)) mod 256).
  { induction n as [|n IH]; intros Hn; [exists []; split; [reflexivity|lia]|]. destruct IH as (raw & L & E); [lia|].
    exists (raw ++ [(nth n xs 0 + predicted ft (at_left ch raw n) (nth n prev 0) (at_left ch prev n)) mod 256]). split; [rewrite app_length, L; cbn; lia|].
    assert (A : forall x i, (i <= n)%nat -> at_left ch (raw ++ [x]) i = at_left ch raw i).
    { intros x i Hi. unfold at_left. destruct (Nat.ltb_spec i ch); [reflexivity|]. apply app_nth1. lia. }
    intros i Hi. rewrite A by lia. destruct (Nat.eq_dec i n) as [->|D].
    - rewrite app_nth2 by lia. rewrite L, Nat.sub_diag. reflexivity.
    - rewrite app_nth1 by lia. apply E. lia. }
  destruct (G (length xs) (le_n _)) as (raw & L & E). exists raw. now split.
Qed.
Lemma in_pixels ch : (0 < ch)%nat -> forall n (l : bytes), length l = (ch * n)%nat -> exists px, l = concat px /\ px_ok ch px.
Proof.
  intros Hch. induction n as [|n IH]; intros l H; [exists []; destruct l; [split; [reflexivity|constructor]|rewrite Nat.mul_0_r in H; discriminate H]|].
  destruct (IH (skipn ch l)) as (px & E & P); [rewrite skipn_length; lia|]. exists (firstn ch l :: px). split; [cbn [concat]; rewrite <- E; symmetry; apply firstn_skipn|].
  constructor; [rewrite firstn_length; lia|exact P].
Qed.
Lemma decoded ch : (0 < ch)%nat -> forall rows prev, Forall (fun r => px_ok ch (snd r)) rows -> exists pix, Forall (px_ok ch) pix /\ rows_mean ch prev (to_rows rows) (map (@concat Z) pix).
Proof.
  intros Hch. induction rows as [|[ft row] rows IH]; intros prev H; [exists []; split; constructor|]. pose proof (Forall_inv H) as H1. pose proof (Forall_inv_tail H) as H2. cbn [snd] in H1.
  destruct (row_total ch ft prev (concat row) Hch) as (raw & R). destruct (in_pixels ch Hch (length row) raw) as (px & E & P); [rewrite (proj1 R); now apply concat_len|].
  destruct (IH raw H2) as (pix & F & M). exists (px :: pix). split; [now constructor|]. cbn. rewrite <- E. now constructor.
Qed.

(** ** C36 *)
Lemma sel_alpha ch rows : (0 < ch)%nat -> px_ok ch rows -> flat_map (take (ch - 1) 1) rows = flat_map (skipn (ch - 1)) rows.
Proof.
  intros Hch. induction 1 as [|p rows Hp _ IH]; [reflexivity|]. cbn [flat_map]. rewrite IH. f_equal. unfold take. apply firstn_all2. rewrite skipn_length. lia.
Qed.
(** For a PNG image with alpha (gray or in colours, eight bits), whatever its size,
    its pixels and its filters, the image data holds each row with its filter and its
    colour samples, the mask each row with its filter and its alpha samples; a
    reader that undoes the filters gets the colour of every pixel from the one and
    its alpha from the other.  [rows] are the filtered rows as pixels, [pix] the
    pixels they stand for. *)
Theorem C36_alpha_partial : forall inflate deflate itoa readdpi w ct hcrc chunks tail (rows : list (Z * list bytes)),
  (forall x, inflate (deflate x) = ZPlain x) -> ct = 4 \/ ct = 6 ->
  let ch := if ct =? 4 then 2%nat else 4%nat in
  Forall (fun r => length (snd r) = w /\ Forall (fun p => length p = ch) (snd r)) rows ->
  Z.of_nat w < 2147483648 -> Z.of_nat (length rows) < 2147483648 -> length hcrc = 4%nat ->
  Forall (chunk_ok ct) chunks -> Forall (fun c => c_data c <> []) chunks ->
  inflate (concat (of_type (bs "IDAT") chunks)) = ZPlain (stream (to_rows rows)) ->
  exists i mask, parse_png inflate deflate itoa readdpi (png_bytes (Z.of_nat w) (Z.of_nat (length rows)) 8 ct hcrc chunks tail) = Ret (i, false) /\
    i_smask i = Some mask /\ i_w i = Z.of_nat w /\ i_h i = Z.of_nat (length rows) /\ i_bpc i = 8 /\
    i_cs i = (if ct =? 4 then bs "DeviceGray" else bs "DeviceRGB") /\
    i_dp i = bs "/Predictor 15 /Colors " ++ itoa (if ct =? 4 then 1 else 3) ++ bs " /BitsPerComponent " ++ itoa 8 ++ bs " /Columns " ++ itoa (Z.of_nat w) /\
    let colors := map (fun r => (fst r, flat_map (firstn (ch - 1)) (snd r))) rows in
    let alphas := map (fun r => (fst r, flat_map (skipn (ch - 1)) (snd r))) rows in
    inflate (i_data i) = ZPlain (stream colors) /\ inflate mask = ZPlain (stream alphas) /\
    forall pix, Forall (Forall (fun p => length p = ch)) pix -> rows_mean ch [] (to_rows rows) (map (@concat Z) pix) ->
      rows_mean (ch - 1) [] colors (map (flat_map (firstn (ch - 1))) pix) /\ rows_mean 1 [] alphas (map (flat_map (skipn (ch - 1))) pix).
Proof.
  intros inflate deflate itoa readdpi w ct hcrc chunks tail rows ZI C ch Hrows Hw Hh Hc K N D.
  assert (Cs : color_space ct = Some (if ct =? 4 then bs "DeviceGray" else bs "DeviceRGB", if ct =? 4 then 1 else 3)) by (destruct C as [-> | ->]; reflexivity).
  rewrite (parse_ok inflate deflate itoa readdpi (Z.of_nat w) (Z.of_nat (length rows)) 8 ct hcrc chunks tail _ _ ltac:(lia) ltac:(lia) ltac:(lia) Cs Hc K N). cbv zeta.
  rewrite (proj2 (Z.leb_le 4 ct)) by (destruct C; lia). rewrite steps_data. cbn [s_data start_scan app]. rewrite D.
  rewrite (separate_ok ct w rows C Hrows). cbn [obind].
  assert (Ix : beqb (if ct =? 4 then bs "DeviceGray" else bs "DeviceRGB") (bs "Indexed") = false) by (destruct C as [-> | ->]; reflexivity). rewrite Ix. cbn [andb].
  eexists. eexists. split; [reflexivity|]. cbn [i_smask i_w i_h i_bpc i_cs i_dp i_data]. split; [reflexivity|]. do 4 (split; [reflexivity|]). split; [reflexivity|].
  fold ch. split; [apply ZI|]. split; [apply ZI|]. intros pix Hp M.
  assert (Hch : (1 < ch)%nat) by (unfold ch; destruct (ct =? 4); lia).
  assert (HR : Forall (fun r => px_ok ch (snd r)) rows) by (eapply Forall_impl; [|exact Hrows]; intros r [_ X]; exact X).
  split.
  - exact (rows_sel ch 0 (ch - 1) ltac:(lia) ltac:(lia) rows [] pix (Forall_nil _) HR Hp M).
  - pose proof (rows_sel ch (ch - 1) 1 ltac:(lia) ltac:(lia) rows [] pix (Forall_nil _) HR Hp M) as R.
    replace (map (fun r => (fst r, flat_map (skipn (ch - 1)) (snd r))) rows) with (map (fun r => (fst r, flat_map (take (ch - 1) 1) (snd r))) rows)
      by (apply map_ext_in; intros r Hr; f_equal; apply sel_alpha; [lia|exact (proj1 (Forall_forall _ _) HR r Hr)]).
    replace (map (flat_map (skipn (ch - 1))) pix) with (map (flat_map (take (ch - 1) 1)) pix)
      by (apply map_ext_in; intros r Hr; apply sel_alpha; [lia|exact (proj1 (Forall_forall _ _) Hp r Hr)]). exact R.
Qed.
Print Assumptions C36_alpha_partial.

(** *** A case: two rows of two gray pixels with alpha, with filters, the data in
    two chunks after a chunk of another kind.  Compression is left out. *)
Definition copy_inflate (b : bytes) : zres := match b with [] => ZNoReader | _ => ZPlain (removelast b) end.
Definition copy_deflate (b : bytes) : bytes := b ++ [0].
Definition case_chunks : list chunk :=
  [{| c_type := bs "tEXt"; c_data := bs "x"; c_crc := [1; 2; 3; 4] |}; {| c_type := bs "IDAT"; c_data := [1; 10; 20; 30; 40]; c_crc := [1; 2; 3; 4] |};
   {| c_type := bs "IDAT"; c_data := [4; 1; 2; 255; 4; 0]; c_crc := [1; 2; 3; 4] |}].
Definition case_rows : list (Z * list bytes) := [(1, [[10; 20]; [30; 40]]); (4, [[1; 2]; [255; 4]])].
Example C36_case : (forall x, copy_inflate (copy_deflate x) = ZPlain x) /\
  Forall (fun r => length (snd r) = 2%nat /\ Forall (fun p => length p = 2%nat) (snd r)) case_rows /\
  Forall (chunk_ok 4) case_chunks /\ Forall (fun c => c_data c <> []) case_chunks /\
  copy_inflate (concat (of_type (bs "IDAT") case_chunks)) = ZPlain (stream (to_rows case_rows)) /\
  rows_mean 2 [] (to_rows case_rows) (map (@concat Z) [[[10; 20]; [40; 60]]; [[11; 22]; [39; 64]]]).
Proof.
  split. { intros x. unfold copy_inflate, copy_deflate. destruct (x ++ [0]) eqn:E; [now destruct x|]. rewrite <- E. f_equal. apply removelast_last. }
  split; [repeat constructor|]. split. { repeat constructor; cbn; try lia; try discriminate. }
  split; [repeat constructor; discriminate|]. split; [reflexivity|].
  repeat (constructor; [split; [reflexivity|]; intros i Hi; cbn in Hi; destruct i as [|[|[|[|]]]]; [reflexivity..|lia]|]). constructor.
Qed.
(** A chunk of no bytes, which PNG allows, ends the reading; without image data the
    program crashes. *)
Theorem C36_empty_chunk_refuted : forall inflate deflate itoa readdpi hcrc tail, inflate [] = ZNoReader -> length hcrc = 4%nat ->
  let empty := {| c_type := bs "IDAT"; c_data := []; c_crc := [1; 2; 3; 4] |} in
  Forall (chunk_ok 4) (empty :: case_chunks) /\ of_type (bs "IDAT") (empty :: case_chunks) = [] :: of_type (bs "IDAT") case_chunks /\
  parse_png inflate deflate itoa readdpi (png_bytes 2 2 8 4 hcrc (empty :: case_chunks) tail) = Panic.
Proof.
  intros inflate deflate itoa readdpi hcrc tail Z0 Hc empty. split; [|split; [reflexivity|]].
  { constructor; [|apply C36_case]. repeat split; cbn; try lia; discriminate. }
  destruct hcrc as [|h0 [|h1 [|h2 [|h3 [|]]]]]; try discriminate Hc. cbn. now rewrite Z0.
Qed.
Print Assumptions C36_empty_chunk_refuted.

(** ** C59: images without alpha *)
Definition be16 (d : bytes) (i : nat) : Z := 256 * nth i d 0 + nth (S i) d 0.
(** the colour a tRNS chunk names, for gray and for colours *)
Definition named (ct : Z) (d : bytes) : list Z := if ct =? 0 then [be16 d 0] else [be16 d 0; be16 d 2; be16 d 4].
(** The image data, size, depth, colour space and palette are those of the file, and
    the decoding parameters describe the data. *)
Theorem C59_opaque_partial : forall inflate deflate itoa readdpi w h depth ct ch hcrc chunks tail,
  channels ct = Some ch -> ct < 4 -> 0 <= w < 2147483648 -> 0 <= h < 2147483648 -> depth <= 8 -> length hcrc = 4%nat ->
  Forall (chunk_ok ct) chunks -> Forall (fun c => c_data c <> []) chunks -> (ct = 3 -> of_type (bs "PLTE") chunks <> []) ->
  exists i, parse_png inflate deflate itoa readdpi (png_bytes w h depth ct hcrc chunks tail) = Ret (i, false) /\
    i_w i = w /\ i_h i = h /\ i_bpc i = depth /\ i_smask i = None /\ i_data i = concat (of_type (bs "IDAT") chunks) /\
    i_cs i = (if ct =? 0 then bs "DeviceGray" else if ct =? 2 then bs "DeviceRGB" else bs "Indexed") /\
    (ct = 3 -> i_pal i = last (of_type (bs "PLTE") chunks) []) /\
    i_dp i = bs "/Predictor 15 /Colors " ++ itoa (Z.of_nat ch) ++ bs " /BitsPerComponent " ++ itoa depth ++ bs " /Columns " ++ itoa w.
Proof.
  intros inflate deflate itoa readdpi w h depth ct ch hcrc chunks tail C L Hw Hh Hd Hc K N P.
  assert (Cs : color_space ct = Some (if ct =? 0 then bs "DeviceGray" else if ct =? 2 then bs "DeviceRGB" else bs "Indexed", Z.of_nat ch)).
  { unfold channels in C. destruct (Z.eqb_spec ct 0) as [->|]; [injection C as <-; reflexivity|]. destruct (Z.eqb_spec ct 2) as [->|]; [injection C as <-; reflexivity|].
    destruct (Z.eqb_spec ct 3) as [->|]; [injection C as <-; reflexivity|]. destruct (Z.eqb_spec ct 4); [lia|]. destruct (Z.eqb_spec ct 6); [lia|discriminate]. }
  rewrite (parse_ok inflate deflate itoa readdpi w h depth ct hcrc chunks tail _ _ Hw Hh Hd Cs Hc K N). cbv zeta. rewrite (proj2 (Z.leb_gt 4 ct)) by lia.
  assert (E : beqb (if ct =? 0 then bs "DeviceGray" else if ct =? 2 then bs "DeviceRGB" else bs "Indexed") (bs "Indexed") && (length (s_pal (fold_left (step readdpi ct) chunks start_scan)) =? 0)%nat = false).
  { rewrite steps_pal. cbn [s_pal start_scan]. destruct (Z.eqb_spec ct 0); [reflexivity|]. destruct (Z.eqb_spec ct 2); [reflexivity|].
    rewrite beqb_refl. cbn [andb]. assert (ct = 3) as E3 by (unfold channels in C; destruct (Z.eqb_spec ct 0); [easy|]; destruct (Z.eqb_spec ct 2); [easy|]; destruct (Z.eqb_spec ct 3); [easy|]; destruct (Z.eqb_spec ct 4); [lia|]; destruct (Z.eqb_spec ct 6); [lia|discriminate]).
    specialize (P E3). assert (F : Forall (fun d : bytes => d <> []) (of_type (bs "PLTE") chunks)).
    { unfold of_type. apply Forall_map. apply Forall_forall. intros c Hi. apply filter_In in Hi as [Hi _]. exact (proj1 (Forall_forall _ _) N c Hi). }
    destruct (of_type (bs "PLTE") chunks) as [|d l]; [easy|]. assert (G : last (d :: l) [] <> []).
    { clear -F. revert d F. induction l as [|e l IH]; intros d F; [exact (Forall_inv F)|]. exact (IH e (Forall_inv_tail F)). }
    destruct (last (d :: l) []); [easy|reflexivity]. }
  rewrite E. eexists. split; [reflexivity|]. cbn [i_smask i_w i_h i_bpc i_cs i_dp i_data i_pal]. rewrite steps_data, steps_pal. cbn [s_data s_pal start_scan app]. repeat split.
Qed.
Print Assumptions C59_opaque_partial.
(** The colour a tRNS chunk names is the one masked; in an image with a palette, the
    first entry that is fully transparent. *)
Theorem C59_transparent_partial : forall inflate deflate itoa readdpi w h depth ct hcrc chunks tail d i e,
  0 <= w < 2147483648 -> 0 <= h < 2147483648 -> depth <= 8 -> length hcrc = 4%nat ->
  Forall (chunk_ok ct) chunks -> Forall (fun c => c_data c <> []) chunks -> of_type (bs "tRNS") chunks = [d] ->
  parse_png inflate deflate itoa readdpi (png_bytes w h depth ct hcrc chunks tail) = Ret (i, e) ->
  (ct = 0 \/ ct = 2 -> Forall (fun v => 0 <= v < 256) (named ct d) -> Forall is_byte d -> i_trns i = named ct d) /\
  (ct = 3 -> forall k, (k < length d)%nat -> nth k d 255 = 0 -> (forall j, (j < k)%nat -> nth j d 255 <> 0) -> i_trns i = [Z.of_nat k]) /\
  (ct = 3 -> ~ In 0 d -> i_trns i = []).
Proof.
  intros inflate deflate itoa readdpi w h depth ct hcrc chunks tail d i e Hw Hh Hd Hc K N T.
  destruct (color_space ct) as [[cs colors]|] eqn:C.
  2:{ unfold color_space in C. intros _. destruct (Z.eqb_spec ct 0) as [->|]; [discriminate C|]. destruct (Z.eqb_spec ct 2) as [->|]; [discriminate C|]. destruct (Z.eqb_spec ct 3) as [->|]; [discriminate C|]. repeat split; intros; lia. }
  rewrite (parse_ok inflate deflate itoa readdpi w h depth ct hcrc chunks tail _ _ Hw Hh Hd C Hc K N). cbv zeta.
  intros R. assert (E : 4 <= ct \/ i_trns i = key ct d []).
  { destruct (Z.leb_spec 4 ct); [now left|]. right. injection R as <- _. cbn [i_trns]. rewrite steps_trns, T. reflexivity. }
  clear R. split; [|split].
  - intros Hct V B. destruct E as [E|E]; [lia|]. rewrite E. unfold key, named in *. destruct Hct as [-> | ->]; cbn [Z.eqb Pos.eqb] in *.
    + pose proof (Forall_inv V) as V0. unfold be16 in *. destruct d as [|a [|b [|]]]; cbn [nth] in *; try (f_equal; lia); pose proof (Forall_inv B) as Ba; unfold is_byte in Ba; try (pose proof (Forall_inv (Forall_inv_tail B)) as Bb; unfold is_byte in Bb); f_equal; lia.
    + inversion V as [|? ? V0 V']; subst. inversion V' as [|? ? V1 V'']; subst. pose proof (Forall_inv V'') as V2. clear V V' V''. unfold be16 in *.
      assert (X : forall k, 0 <= nth k d 0 <= 255) by (intros k; destruct (Nat.lt_ge_cases k (length d)) as [G|G]; [exact (proj1 (Forall_forall _ _) B _ (nth_In _ _ G))|rewrite nth_overflow by exact G; lia]).
      pose proof (X 0%nat). pose proof (X 1%nat). pose proof (X 2%nat). pose proof (X 3%nat). pose proof (X 4%nat). pose proof (X 5%nat). f_equal; [lia|f_equal; [lia|f_equal; lia]].
  - intros -> k Hk Z0 Hj. destruct E as [E|E]; [lia|]. rewrite E. unfold key. cbn [Z.eqb Pos.eqb].
    assert (G : forall (l : bytes) k n, (k < length l)%nat -> nth k l 255 = 0 -> (forall j, (j < k)%nat -> nth j l 255 <> 0) -> index_of 0 l n = Some (n + Z.of_nat k)).
    { induction l as [|x l IH]; intros k' n Hk' Z0' Hj'; [cbn in Hk'; lia|]. cbn [index_of]. destruct k' as [|k'].
      - cbn in Z0'. subst x. cbn. f_equal. lia.
      - rewrite (proj2 (Z.eqb_neq x 0)) by (exact (Hj' 0%nat ltac:(lia))). rewrite (IH k') by (try (cbn in Hk'; lia); try exact Z0'; intros j Hjj; exact (Hj' (S j) ltac:(lia))). f_equal. lia. }
    rewrite (G d k 0 Hk Z0 Hj). reflexivity.
  - intros -> Hn. destruct E as [E|E]; [lia|]. rewrite E. unfold key. cbn [Z.eqb Pos.eqb].
    assert (G : forall (l : bytes) n, ~ In 0 l -> index_of 0 l n = None).
    { induction l as [|x l IH]; intros n Hx; [reflexivity|]. cbn [index_of]. rewrite (proj2 (Z.eqb_neq x 0)) by (intros ->; apply Hx; now left). apply IH. intros X. apply Hx. now right. }
    now rewrite G.
Qed.
Print Assumptions C59_transparent_partial.
Definition pal_chunks : list chunk :=
  [{| c_type := bs "PLTE"; c_data := [1; 2; 3; 4; 5; 6; 7; 8; 9]; c_crc := [1; 2; 3; 4] |}; {| c_type := bs "tRNS"; c_data := [255; 0; 0]; c_crc := [1; 2; 3; 4] |};
   {| c_type := bs "IDAT"; c_data := [0; 1; 0; 2]; c_crc := [1; 2; 3; 4] |}].
(** the hypotheses of the two theorems are met *)
Example C59_case : channels 3 = Some 1%nat /\ Forall (chunk_ok 3) pal_chunks /\ Forall (fun c => c_data c <> []) pal_chunks /\ of_type (bs "PLTE") pal_chunks <> [] /\ of_type (bs "tRNS") pal_chunks = [[255; 0; 0]].
Proof. repeat split; try discriminate; repeat constructor; cbn; try lia; try discriminate. Qed.
(** Two entries of a palette are fully transparent; only one of them is masked. *)
Theorem C59_palette_refuted : forall inflate deflate itoa readdpi hcrc tail, length hcrc = 4%nat ->
  exists i, parse_png inflate deflate itoa readdpi (png_bytes 1 2 8 3 hcrc pal_chunks tail) = Ret (i, false) /\
    of_type (bs "tRNS") pal_chunks = [[255; 0; 0]] /\ i_trns i = [1].
Proof.
  intros inflate deflate itoa readdpi hcrc tail Hc.
  rewrite (parse_ok inflate deflate itoa readdpi 1 2 8 3 hcrc pal_chunks tail _ _ ltac:(lia) ltac:(lia) ltac:(lia) eq_refl Hc (proj1 (proj2 C59_case)) (proj1 (proj2 (proj2 C59_case)))).
  eexists. split; [reflexivity|]. split; reflexivity.
Qed.
Print Assumptions C59_palette_refuted.
(** After an empty chunk the image data is lost, and no error is reported. *)
Theorem C59_empty_chunk_refuted : forall inflate deflate itoa readdpi hcrc tail, length hcrc = 4%nat ->
  let file := {| c_type := bs "tEXt"; c_data := []; c_crc := [1; 2; 3; 4] |} :: [{| c_type := bs "IDAT"; c_data := [0; 1]; c_crc := [1; 2; 3; 4] |}] in
  Forall (chunk_ok 0) file /\
  exists i, parse_png inflate deflate itoa readdpi (png_bytes 1 1 8 0 hcrc file tail) = Ret (i, false) /\ concat (of_type (bs "IDAT") file) = [0; 1] /\ i_data i = [].
Proof.
  intros inflate deflate itoa readdpi hcrc tail Hc file. split; [repeat constructor; cbn; try lia; discriminate|].
  destruct hcrc as [|h0 [|h1 [|h2 [|h3 [|]]]]]; try discriminate Hc. eexists. split; [reflexivity|split; reflexivity].
Qed.
Print Assumptions C59_empty_chunk_refuted.

(** ** C60: damaged files *)
Lemma byte_at_fuel b i : byte_at b i <> OutOfFuel.
Proof. unfold byte_at. destruct (i <? 0); [discriminate|]. destruct (nth_error b (Z.to_nat i)); discriminate. Qed.
Lemma obind_fuel {A B} (o : outcome A) (k : A -> outcome B) : o <> OutOfFuel -> (forall a, o = Ret a -> k a <> OutOfFuel) -> obind o k <> OutOfFuel.
Proof. destruct o; cbn; intros H1 H2; [now apply H2|discriminate|easy]. Qed.
Lemma gray_fuel : forall k data el co al, gray_cols k data el co al <> OutOfFuel.
Proof. induction k as [|k IH]; intros; cbn [gray_cols]; [discriminate|]. do 2 (apply obind_fuel; [apply byte_at_fuel|intros ? _]). apply IH. Qed.
Lemma rgb_fuel : forall k data el co al, rgb_cols k data el co al <> OutOfFuel.
Proof. induction k as [|k IH]; intros; cbn [rgb_cols]; [discriminate|]. do 4 (apply obind_fuel; [apply byte_at_fuel|intros ? _]). apply IH. Qed.
Lemma sep_fuel cols : (forall k data el co al, cols k data el co al <> OutOfFuel) -> forall k i len w data co al, sep_rows k i cols len w data co al <> OutOfFuel.
Proof. intros H. induction k as [|k IH]; intros; cbn [sep_rows]; [discriminate|]. apply obind_fuel; [apply byte_at_fuel|intros ft _]. apply obind_fuel; [apply H|intros [co' al'] _]. apply IH. Qed.
Lemma next_fuel n b : next n b <> OutOfFuel. Proof. unfold next. destruct (n <? 0); discriminate. Qed.
Lemma next_len n b d r : next n b = Ret (d, r) -> (length r <= length b)%nat.
Proof. unfold next. destruct (n <? 0); [discriminate|]. intros H. injection H as _ <-. rewrite skipn_length. lia. Qed.
Lemma trns_fuel ct t old : trns_of ct t old <> OutOfFuel.
Proof.
  unfold trns_of. destruct (ct =? 0); [apply obind_fuel; [apply byte_at_fuel|discriminate]|]. destruct (ct =? 2); [|destruct (index_of 0 t 0); discriminate].
  do 3 (apply obind_fuel; [apply byte_at_fuel|intros ? _]). discriminate.
Qed.
Lemma read_len b n r e : read_be32 b = (n, r, e) -> (length r <= length b)%nat /\ (0 < n -> (length r < length b)%nat).
Proof. intros H. destruct b as [|x [|y [|z [|t b]]]]; cbn in H; injection H as <- <- <-; cbn; split; intros; lia. Qed.
Lemma one_len readdpi ct n ty b s : one_chunk readdpi ct n ty b s <> OutOfFuel /\ forall s' b' fin, one_chunk readdpi ct n ty b s = Ret (s', b', fin) -> (length b' <= length b)%nat.
Proof.
  assert (S4 : forall r : bytes, (length (snd (next4 r)) <= length r)%nat) by (intros r; cbn [next4 snd]; rewrite skipn_length; lia).
  unfold one_chunk. destruct (beqb ty (bs "PLTE")).
  { split; [apply obind_fuel; [apply next_fuel|intros [] _; discriminate]|]. intros s' b' fin H. destruct (next n b) as [[d r]| |] eqn:E; try discriminate H. apply next_len in E. cbn [obind] in H. injection H as _ <- _. pose proof (S4 r). cbn in *. lia. }
  destruct (beqb ty (bs "tRNS")).
  { split; [apply obind_fuel; [apply next_fuel|intros [d r] _; apply obind_fuel; [apply trns_fuel|discriminate]]|]. intros s' b' fin H. destruct (next n b) as [[d r]| |] eqn:E; try discriminate H. apply next_len in E. cbn [obind] in H.
    destruct (trns_of ct d (s_trns s)); try discriminate H. cbn [obind] in H. injection H as _ <- _. pose proof (S4 r). cbn in *. lia. }
  destruct (beqb ty (bs "IDAT")).
  { split; [apply obind_fuel; [apply next_fuel|intros [] _; discriminate]|]. intros s' b' fin H. destruct (next n b) as [[d r]| |] eqn:E; try discriminate H. apply next_len in E. cbn [obind] in H. injection H as _ <- _. pose proof (S4 r). cbn in *. lia. }
  destruct (beqb ty (bs "IEND")); [split; [discriminate|]; intros s' b' fin H; injection H as _ <- _; lia|].
  destruct (beqb ty (bs "pHYs")).
  { destruct (read_be32 b) as [[x r1] e1] eqn:E1. destruct (read_be32 r1) as [[y r2] e2] eqn:E2. apply read_len in E1, E2. destruct r2 as [|u r2]; [split; discriminate|].
    split; [discriminate|]. intros s' b' fin H. injection H as _ <- _. pose proof (S4 r2). cbn in *. lia. }
  split; [apply obind_fuel; [apply next_fuel|intros [] _; discriminate]|]. intros s' b' fin H. destruct (next (n + 4) b) as [[d r]| |] eqn:E; try discriminate H. apply next_len in E. cbn [obind] in H. injection H as _ <- _. lia.
Qed.
Lemma chunks_fuel readdpi ct : forall fuel b s, (length b < fuel)%nat -> chunks_loop fuel readdpi ct b s <> OutOfFuel.
Proof.
  induction fuel as [|fuel IH]; intros b s H; [lia|]. cbn [chunks_loop]. destruct (read_be32 b) as [[n r] e] eqn:E. apply read_len in E as [E1 E2]. unfold next4.
  match goal with |- obind (one_chunk _ _ _ ?ty ?b0 ?s0) _ <> _ => destruct (one_len readdpi ct n ty b0 s0) as [F1 F2]; destruct (one_chunk readdpi ct n ty b0 s0) as [[[s' b'] fin]| |] end; [|discriminate|easy].
  cbn [obind]. specialize (F2 _ _ _ eq_refl). rewrite skipn_length in F2. destruct fin; [discriminate|]. destruct (Z.ltb_spec 0 n) as [G|G]; [|discriminate]. apply IH. specialize (E2 G). lia.
Qed.
(** Reading ends for every sequence of bytes. *)
Theorem C60_ends_partial : forall inflate deflate itoa readdpi file, parse_png inflate deflate itoa readdpi file <> OutOfFuel.
Proof.
  intros inflate deflate itoa readdpi file. unfold parse_png. destruct (negb _); [discriminate|]. cbn [next4]. destruct (negb _); [discriminate|].
  destruct (read_be32 _) as [[w b1] e1]. destruct (read_be32 b1) as [[h b2] e2]. destruct (read_byte b2) as [[bpc b3] e3]. destruct (read_byte b3) as [[ct b4] e4].
  destruct (color_space ct) as [[cs colors]|]; [|discriminate]. destruct (_ || _); [discriminate|].
  destruct (read_byte b4) as [[m1 b5] e5]. destruct (negb _); [discriminate|]. destruct (read_byte b5) as [[m2 b6] e6]. destruct (negb _); [discriminate|]. destruct (read_byte b6) as [[m3 b7] e7]. destruct (negb _); [discriminate|].
  apply obind_fuel; [apply chunks_fuel; cbn [snd]; lia|]. intros s _. destruct (4 <=? ct); [|discriminate]. destruct (inflate (s_data s)); [discriminate|discriminate|].
  apply obind_fuel; [|intros [] _; discriminate]. unfold separate. destruct (ct =? 4); apply sep_fuel; [apply gray_fuel|apply rgb_fuel].
Qed.
Print Assumptions C60_ends_partial.
(** Anything that does not start as a PNG image is reported. *)
Theorem C60_not_png_partial : forall inflate deflate itoa readdpi file, firstn 8 file <> signature -> exists i, parse_png inflate deflate itoa readdpi file = Ret (i, true).
Proof. intros. eexists. unfold parse_png. rewrite (proj2 (beqb_neq _ _) H). reflexivity. Qed.
Print Assumptions C60_not_png_partial.
(** Whatever is accepted has the header of a supported PNG image: at most eight bits
    per sample, a known colour type, no unknown method, not interlaced; and an image
    with a palette has one. *)
Lemma one_err readdpi ct n ty b s s' b' fin : one_chunk readdpi ct n ty b s = Ret (s', b', fin) -> s_err s = true -> s_err s' = true.
Proof.
  unfold one_chunk. intros H E.
  destruct (beqb ty (bs "PLTE")); [destruct (next n b) as [[d r]| |]; try discriminate H; cbn [obind] in H; injection H as <- _ _; exact E|].
  destruct (beqb ty (bs "tRNS")); [destruct (next n b) as [[d r]| |]; try discriminate H; cbn [obind] in H; destruct (trns_of ct d (s_trns s)); try discriminate H; cbn [obind] in H; injection H as <- _ _; exact E|].
  destruct (beqb ty (bs "IDAT")); [destruct (next n b) as [[d r]| |]; try discriminate H; cbn [obind] in H; injection H as <- _ _; exact E|].
  destruct (beqb ty (bs "IEND")); [injection H as <- _ _; exact E|].
  destruct (beqb ty (bs "pHYs")).
  { destruct (read_be32 b) as [[x r1] e1]. destruct (read_be32 r1) as [[y r2] e2]. destruct r2; [discriminate H|]. injection H as <- _ _. cbn [s_err]. now rewrite E. }
  destruct (next (n + 4) b) as [[d r]| |]; try discriminate H. cbn [obind] in H. injection H as <- _ _. exact E.
Qed.
Lemma chunks_err readdpi ct : forall fuel b s s', chunks_loop fuel readdpi ct b s = Ret s' -> s_err s = true -> s_err s' = true.
Proof.
  induction fuel as [|fuel IH]; intros b s s' H E; [discriminate H|]. cbn [chunks_loop] in H. destruct (read_be32 b) as [[n r] e]. unfold next4 in H.
  match type of H with obind (one_chunk _ _ _ ?ty ?b0 ?s0) _ = _ => destruct (one_chunk readdpi ct n ty b0 s0) as [[[s1 b1] fin]| |] eqn:O end; try discriminate H.
  cbn [obind] in H. apply one_err in O; [|cbn [s_err]; now rewrite E]. destruct fin; [injection H as <-; exact O|]. destruct (0 <? n); [eapply IH; eassumption|injection H as <-; exact O].
Qed.
Lemma split4 (b : bytes) t : firstn 4 b = t -> b = t ++ skipn 4 b.
Proof. intros <-. symmetry. apply firstn_skipn. Qed.
Lemma read_be32_some b v r e : read_be32 b = (v, r, e) -> r <> [] -> exists q, length q = 4%nat /\ b = q ++ r.
Proof. intros H N. destruct b as [|x [|y [|z [|t b]]]]; cbn in H; injection H as <- <- <-; try easy. exists [x; y; z; t]. now split. Qed.
Lemma read_byte_some b v r e : read_byte b = (v, r, e) -> e = false -> b = v :: r.
Proof. intros H N. destruct b; cbn in H; injection H as <- <- <-; easy. Qed.
Theorem C60_accepted_partial : forall inflate deflate itoa readdpi file i, parse_png inflate deflate itoa readdpi file = Ret (i, false) ->
  exists len w h depth ct rest, file = signature ++ len ++ bs "IHDR" ++ w ++ h ++ [depth; ct; 0; 0; 0] ++ rest /\
    length len = 4%nat /\ length w = 4%nat /\ length h = 4%nat /\ depth <= 8 /\ channels ct <> None /\ i_bpc i = depth /\ (ct = 3 -> i_pal i <> []).
Proof.
  intros inflate deflate itoa readdpi file i H. unfold parse_png in H. destruct (beqb (firstn 8 file) signature) eqn:S; [|discriminate H]. apply beqb_eq in S. cbn [negb] in H.
  cbn [next4] in H. destruct (beqb (firstn 4 (skipn 4 (skipn 8 file))) (bs "IHDR")) eqn:T; [|discriminate H]. apply beqb_eq in T. cbn [negb] in H. apply split4 in T.
  assert (L : length (firstn 4 (skipn 8 file)) = 4%nat) by (assert (length (skipn 4 (skipn 8 file)) <> 0%nat) by (rewrite T; discriminate); rewrite skipn_length in H0; rewrite firstn_length; lia).
  destruct (read_be32 _) as [[w b1] e1] eqn:R1 in H. destruct (read_be32 b1) as [[h b2] e2] eqn:R2. destruct (read_byte b2) as [[bpc b3] e3] eqn:R3. destruct (read_byte b3) as [[ct b4] e4] eqn:R4.
  destruct (color_space ct) as [[cs colors]|] eqn:CS; [|discriminate H]. destruct (e1 || e2 || e3 || e4 || (8 <? bpc)) eqn:EE; [discriminate H|].
  rewrite !orb_false_iff in EE. destruct EE as [[[[-> ->] ->] ->] BP]. apply Z.ltb_ge in BP.
  destruct (read_byte b4) as [[m1 b5] e5] eqn:R5. destruct (Z.eqb_spec m1 0) as [->|]; [|discriminate H]. cbn [negb] in H.
  destruct (read_byte b5) as [[m2 b6] e6] eqn:R6. destruct (Z.eqb_spec m2 0) as [->|]; [|discriminate H]. cbn [negb] in H.
  destruct (read_byte b6) as [[m3 b7] e7] eqn:R7. destruct (Z.eqb_spec m3 0) as [->|]; [|discriminate H]. cbn [negb] in H.
  match type of H with obind (chunks_loop ?a ?b ?c ?d ?e) _ = _ => destruct (chunks_loop a b c d e) as [s| |] eqn:C end; try discriminate H. cbn [obind] in H.
  assert (G : s_err s = false /\ (cs = bs "Indexed" -> s_pal s <> []) /\ i_bpc i = bpc /\ i_pal i = s_pal s).
  { assert (K : s_err s || beqb cs (bs "Indexed") && (length (s_pal s) =? 0)%nat = false /\ i_bpc i = bpc /\ i_pal i = s_pal s).
    { destruct (4 <=? ct); [|injection H as <- H; now split]. destruct (inflate (s_data s)) as [| |pl]; [discriminate H|discriminate H|].
      destruct (separate ct w h pl) as [[co al]| |]; try discriminate H. cbn [obind] in H. injection H as <- H. now split. }
    destruct K as (K & K1 & K2). apply orb_false_iff in K as [K3 K4]. repeat split; try assumption. intros -> P. rewrite P in K4. discriminate K4. }
  destruct G as (G1 & G2 & G3 & G4).
  assert (E567 : e5 || e6 || e7 = false) by (destruct (e5 || e6 || e7) eqn:X; [|reflexivity]; apply chunks_err in C; [congruence|reflexivity]).
  rewrite !orb_false_iff in E567. destruct E567 as [[-> ->] ->].
  apply read_byte_some in R3, R4, R5, R6, R7; try reflexivity. subst b2 b3 b4 b5 b6.
  apply read_be32_some in R2 as (qh & Lh & ->); [|discriminate]. apply read_be32_some in R1 as (qw & Lw & R1); [|destruct qh; discriminate].
  exists (firstn 4 (skipn 8 file)), qw, qh, bpc, ct, b7. repeat split; try assumption.
  - etransitivity; [symmetry; apply (firstn_skipn 8)|]. rewrite S. f_equal. etransitivity; [symmetry; apply (firstn_skipn 4)|]. f_equal. rewrite T. f_equal. rewrite R1. reflexivity.
  - unfold color_space in CS. unfold channels. destruct (ct =? 0); [discriminate|]. destruct (ct =? 2); [discriminate|]. destruct (ct =? 3); [discriminate|]. destruct (ct =? 4); [discriminate|]. destruct (ct =? 6); [discriminate|discriminate CS].
  - intros ->. rewrite G4. apply G2. cbn in CS. injection CS as <- _. reflexivity.
Qed.
Print Assumptions C60_accepted_partial.
(** But damaged files can crash the program: a negative chunk length, a tRNS chunk
    that is too short, a pHYs chunk cut off, image data too short, or data that is
    not a zlib stream. *)
Definition damaged (l : bytes) : bytes := signature ++ [0; 0; 0; 13] ++ bs "IHDR" ++ l.
Definition header (ct : Z) : bytes := [0; 0; 0; 1; 0; 0; 0; 1; 8; ct; 0; 0; 0; 9; 9; 9; 9].
Theorem C60_crash_refuted : forall inflate deflate itoa readdpi, inflate [0] = ZNoReader -> inflate [1] = ZPlain [] ->
  Forall (fun l => parse_png inflate deflate itoa readdpi (damaged l) = Panic)
    [header 0 ++ [255; 0; 0; 0] ++ bs "IDAT"; header 0 ++ [0; 0; 0; 1] ++ bs "tRNS" ++ [0]; header 0 ++ [0; 0; 0; 9] ++ bs "pHYs";
     header 4 ++ [0; 0; 0; 1] ++ bs "IDAT" ++ [1]; header 6 ++ [0; 0; 0; 1] ++ bs "IDAT" ++ [0]].
Proof. intros inflate deflate itoa readdpi Z0 Z1. do 5 (apply Forall_cons; [vm_compute; rewrite ?Z0, ?Z1; reflexivity|]). apply Forall_nil. Qed.
Print Assumptions C60_crash_refuted.
