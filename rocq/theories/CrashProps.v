(** C89: no text crashes the program.  The calls that look characters up in the
    width table of the current font -- SplitLines, SplitText, MultiCell, Write and
    GetStringWidth, see LineModel.v and WriteModel.v -- for every table (an empty
    one before the first SetFont) and every text. *)
From Coq Require Import String.
From Verif Require Import Base TextModel TextSpec TextProofs LineModel LineSpec LineProofs
  MultiCellProofs WriteModel WriteProofs GreedyProofs LineProps.
Open Scope Z_scope.
Notation length := List.length.

(** the calls, with the font (single byte or UTF-8, width table, missing width)
    and the room for a line *)
Inductive text_call :=
| CSplitLines (wmax : Z) (txt : bytes)
| CSplitText (wmax : Z) (txt : bytes)
| CMultiCell (rtl : bool) (wmax : Z) (txt border align : bytes)
| CWrite (indented : bool) (wroom wfull : Z) (txt : bytes)
| CStringWidth (txt : bytes).
Record font := { f_utf8 : bool; f_cw : list Z; f_missing : Z }.
Definition panics (f : font) (c : text_call) : Prop :=
  match c with
  | CSplitLines wmax txt => split_lines (f_cw f) wmax txt = Panic
  | CSplitText wmax txt => split_text (f_cw f) wmax txt = Panic
  | CMultiCell rtl wmax txt border align =>
      multi_cell (f_utf8 f) rtl (f_cw f) (f_missing f) wmax txt border align = McPanic
  | CWrite indented wroom wfull txt => write (f_utf8 f) (f_cw f) indented wroom wfull txt = Panic
  | CStringWidth txt => string_symbol_width (f_utf8 f) (f_cw f) (f_missing f) txt = Panic
  end.
(** the call comes back: with a value or, MultiCell, with the error of the document set *)
Definition returns (f : font) (c : text_call) : Prop :=
  match c with
  | CSplitLines wmax txt => exists r, split_lines (f_cw f) wmax txt = Ret r
  | CSplitText wmax txt => exists r, split_text (f_cw f) wmax txt = Ret r
  | CMultiCell rtl wmax txt border align =>
      exists r, multi_cell (f_utf8 f) rtl (f_cw f) (f_missing f) wmax txt border align = McDone r \/
                multi_cell (f_utf8 f) rtl (f_cw f) (f_missing f) wmax txt border align = McErr r
  | CWrite indented wroom wfull txt => exists r, write (f_utf8 f) (f_cw f) indented wroom wfull txt = Ret r
  | CStringWidth txt => exists r, string_symbol_width (f_utf8 f) (f_cw f) (f_missing f) txt = Ret r
  end.
Definition text_of (c : text_call) : bytes :=
  match c with
  | CSplitLines _ t | CSplitText _ t | CMultiCell _ _ t _ _ | CWrite _ _ _ t | CStringWidth t => t
  end.

(** ** The splitters *)
Section Split.
  Variable is_sep : Z -> bool.
  Variables cw cw' : list Z.
  Variable wmax : Z.
  Variable s : list Z.
  Hypothesis ext : forall c w, at_ cw c = Some w -> at_ cw' c = Some w.

  Lemma split_dich fuel : forall i j sep l lines,
    split_loop is_sep cw wmax s fuel i j sep l lines = Panic \/
    split_loop is_sep cw wmax s fuel i j sep l lines = split_loop is_sep cw' wmax s fuel i j sep l lines.
  Proof.
    induction fuel as [|fuel IH]; intros i j sep l lines; [now right|]. cbn [split_loop].
    destruct (i <? Z.of_nat (length s)); [|now right].
    destruct (at_ s i) as [c|]; [|now left]. destruct (at_ cw c) as [w|] eqn:E; [|now left].
    rewrite (ext _ _ E). cbv zeta. destruct ((c =? 10) || (wmax <? l + w)); [|apply IH].
    destruct (slice s j _) as [ln|]; [apply IH|now left].
  Qed.

  Lemma split_visits fuel : forall i j sep l lines r,
    0 <= i -> -1 <= sep < i ->
    split_loop is_sep cw wmax s fuel i j sep l lines = Ret r ->
    (forall k c, k < i -> at_ s k = Some c -> at_ cw c <> None) ->
    forall k c, at_ s k = Some c -> at_ cw c <> None.
  Proof using.
    clear ext cw'. induction fuel as [|fuel IH]; intros i j sep l lines r Hi Hs Hr Hv; [discriminate|]. cbn [split_loop] in Hr.
    destruct (Z.ltb_spec i (Z.of_nat (length s))) as [Hn|Hn].
    - destruct (at_ s i) as [d|] eqn:Ed; [|discriminate]. destruct (at_ cw d) as [w|] eqn:Ew; [|discriminate].
      assert (Hv' : forall k c, k < i + 1 -> at_ s k = Some c -> at_ cw c <> None).
      { intros k c Hk Hc. destruct (Z.eq_dec k i) as [->|]; [congruence|]. apply (Hv k); [lia|exact Hc]. }
      cbv zeta in Hr. set (sep' := if is_sep d then i else sep) in *.
      assert (Hs' : -1 <= sep' < i + 1) by (unfold sep'; destruct (is_sep d); lia).
      destruct ((d =? 10) || (wmax <? l + w)).
      + destruct (slice s j _) as [ln|]; [|discriminate].
        set (i' := if sep' =? -1 then if i =? j then i + 1 else i else sep' + 1) in *.
        assert (Hpos : 0 <= i') by (unfold i'; destruct (Z.eqb_spec sep' (-1)); [destruct (i =? j); lia|lia]).
        apply (IH i' i' (-1) 0 (lines ++ [ln]) r); [exact Hpos|lia|exact Hr|].
        intros k c Hk. apply Hv'. unfold i' in Hk. destruct (sep' =? -1); [destruct (i =? j); lia|lia].
      + apply (IH (i + 1) j sep' (l + w) lines r); [lia|lia|exact Hr|exact Hv'].
    - intros k c Hc. apply (Hv k); [|exact Hc]. unfold at_ in Hc. destruct (Z.ltb_spec k 0); [discriminate|].
      assert (Z.to_nat k < length s)%nat by (apply nth_error_Some; congruence). lia.
  Qed.
End Split.

(** a table that covers a given text and agrees with the given one *)
Definition extend (cw : list Z) (s : list Z) : list Z :=
  cw ++ repeat 0 (Z.to_nat (fold_right Z.max 0 s + 1)).
Lemma extend_agrees cw s c w : at_ cw c = Some w -> at_ (extend cw s) c = Some w.
Proof.
  unfold at_, extend. destruct (c <? 0); [discriminate|]. intros H. rewrite nth_error_app1; [exact H|].
  apply nth_error_Some. congruence.
Qed.
Lemma le_max s c : In c s -> c <= fold_right Z.max 0 s.
Proof. induction s as [|d s IH]; [intros []|]. intros [->|H]; cbn [fold_right]; [lia|]. specialize (IH H). lia. Qed.
Lemma extend_covers cw s c : In c s -> 0 <= c -> at_ (extend cw s) c <> None.
Proof.
  intros H H0. unfold at_, extend. replace (c <? 0) with false by lia. apply nth_error_Some.
  rewrite app_length, repeat_length. apply le_max in H. lia.
Qed.

(** outside the table *)
Definition beyond (cw : list Z) (c : Z) : Prop := Z.of_nat (length cw) <= c.
Lemma beyond_at cw c : 0 <= c -> (at_ cw c = None <-> beyond cw c).
Proof. intros H. unfold at_, beyond. replace (c <? 0) with false by lia. rewrite nth_error_None. lia. Qed.
Lemma at_in {A} (s : list A) c : In c s -> exists k, at_ s k = Some c.
Proof.
  intros H. apply In_nth_error in H as (n & H). exists (Z.of_nat n). unfold at_.
  replace (Z.of_nat n <? 0) with false by lia. now rewrite Nat2Z.id.
Qed.

Lemma split_exact is_sep cw wmax s : is_sep 10 = true -> Forall (fun c => 0 <= c) s ->
  (split_run is_sep cw wmax s = Panic <-> exists c, In c s /\ beyond cw c) /\
  (split_run is_sep cw wmax s = Panic \/ exists r, split_run is_sep cw wmax s = Ret r).
Proof.
  intros Hsep Hp. rewrite Forall_forall in Hp.
  destruct (split_run_greedy is_sep (extend cw s) wmax s) as (ls & z & _ & Hx); [exact Hsep| |].
  { apply Forall_forall. intros c Hc. apply extend_covers; auto. }
  assert (Hd : split_run is_sep cw wmax s = Panic \/ split_run is_sep cw wmax s = split_run is_sep (extend cw s) wmax s).
  { unfold split_run. apply split_dich. intros c w. apply extend_agrees. }
  split; [|destruct Hd as [Hd|Hd]; [now left|right; rewrite Hd, Hx; eauto]].
  split.
  - intros Hr. destruct (Exists_dec (fun c => beyond cw c) s) as [E|E].
    { intros c. unfold beyond. destruct (Z_le_dec (Z.of_nat (length cw)) c); auto. }
    { apply Exists_exists in E. exact E. }
    exfalso. destruct (split_run_greedy is_sep cw wmax s) as (ls' & z' & _ & Hy); [exact Hsep| |congruence].
    apply Forall_forall. intros c Hc F. apply beyond_at in F; [|auto]. apply E. apply Exists_exists. eauto.
  - intros (c & Hc & Hb). destruct Hd as [Hd|Hd]; [exact Hd|]. rewrite Hx in Hd. exfalso.
    destruct (at_in _ _ Hc) as (k & Hk). apply beyond_at in Hb; [|auto]. revert Hb.
    unfold split_run in Hd. apply (split_visits is_sep cw wmax s (split_fuel s) 0 0 (-1) 0 [] (close ls z)) with (k := k) (c := c) in Hd; [exact Hd|lia|lia| |exact Hk].
    intros k' c' Hk' F. unfold at_ in F. replace (k' <? 0) with true in F by lia. discriminate.
Qed.

(** ** Write *)
Section Write.
  Variables cw cw' : list Z.
  Variable wfull : Z.
  Variable s : list Z.
  Hypothesis ext : forall c w, at_ cw c = Some w -> at_ cw' c = Some w.

  Lemma write_dich fuel : forall r wm i j sep l nl evs,
    write_loop cw wfull s fuel r wm i j sep l nl evs = Panic \/
    write_loop cw wfull s fuel r wm i j sep l nl evs = write_loop cw' wfull s fuel r wm i j sep l nl evs.
  Proof.
    induction fuel as [|fuel IH]; intros r wm i j sep l nl evs; [now right|]. cbn [write_loop].
    destruct (i <? Z.of_nat (length s)); [|now right].
    destruct (at_ s i) as [c|]; [|now left]. cbv zeta. destruct (c =? 10).
    { destruct (slice s j i); [apply IH|now left]. }
    destruct (at_ cw c) as [w|] eqn:E; [|now left]. rewrite (ext _ _ E).
    destruct (wm <? l + w); [|apply IH]. destruct (_ =? -1).
    - destruct r; [apply IH|]. destruct (slice s j _); [apply IH|now left].
    - destruct (slice s j _); [apply IH|now left].
  Qed.

  Definition seen (c : Z) : Prop := c = 10 \/ at_ cw c <> None.
  Lemma write_visits fuel : forall r wm i j sep l nl evs e,
    0 <= i -> -1 <= sep < i ->
    write_loop cw wfull s fuel r wm i j sep l nl evs = Ret e ->
    (forall k c, k < i -> at_ s k = Some c -> seen c) ->
    forall k c, at_ s k = Some c -> seen c.
  Proof using.
    clear ext cw'. induction fuel as [|fuel IH]; intros r wm i j sep l nl evs e Hi Hs Hr Hv; [discriminate|]. cbn [write_loop] in Hr.
    destruct (Z.ltb_spec i (Z.of_nat (length s))) as [Hn|Hn].
    - destruct (at_ s i) as [d|] eqn:Ed; [|discriminate]. cbv zeta in Hr. destruct (Z.eqb_spec d 10) as [E10|E10].
      + assert (Hv' : forall k c, k < i + 1 -> at_ s k = Some c -> seen c).
        { intros k c Hk Hc. destruct (Z.eq_dec k i) as [->|]; [left; congruence|]. apply (Hv k); [lia|exact Hc]. }
        destruct (slice s j i) as [ln|]; [|discriminate]. eapply IH; [| |exact Hr|exact Hv']; lia.
      + destruct (at_ cw d) as [w|] eqn:Ew; [|discriminate].
        assert (Hv' : forall k c, k < i + 1 -> at_ s k = Some c -> seen c).
        { intros k c Hk Hc. destruct (Z.eq_dec k i) as [->|]; [right; congruence|]. apply (Hv k); [lia|exact Hc]. }
        set (sep' := if d =? 32 then i else sep) in *.
        assert (Hs' : -1 <= sep' < i + 1) by (unfold sep'; destruct (d =? 32); lia).
        destruct (wm <? l + w).
        * destruct (Z.eqb_spec sep' (-1)) as [E|E].
          -- destruct r; [eapply IH; [| |exact Hr|exact Hv']; lia|].
             set (i' := if i =? j then i + 1 else i) in *. assert (Hi' : i <= i' <= i + 1) by (unfold i'; destruct (i =? j); lia).
             destruct (slice s j _) as [ln|]; [|discriminate].
             eapply IH; [| |exact Hr|]; [lia|lia|]. intros k c Hk. apply Hv'. lia.
          -- destruct (slice s j _) as [ln|]; [|discriminate].
             eapply IH; [| |exact Hr|]; [lia|lia|]. intros k c Hk. apply Hv'. lia.
        * eapply IH; [| |exact Hr|exact Hv']; lia.
    - intros k c Hc. apply (Hv k); [|exact Hc]. unfold at_ in Hc. destruct (Z.ltb_spec k 0); [discriminate|].
      assert (Z.to_nat k < length s)%nat by (apply nth_error_Some; congruence). lia.
  Qed.
End Write.

Lemma write_exact cw r wm wfull s : Forall (fun c => 0 <= c) s ->
  let run := write_loop cw wfull s (split_fuel s) r wm 0 0 (-1) 0 1 [] in
  (run = Panic <-> exists c, In c s /\ c <> 10 /\ beyond cw c) /\ (run = Panic \/ exists e, run = Ret e).
Proof.
  intros Hp run. rewrite Forall_forall in Hp.
  destruct (write_run_whole (extend cw s) wfull s) with (right := r) (wm := wm) as (evs & _ & Hx).
  { apply Forall_forall. intros c Hc. right. apply extend_covers; auto. }
  assert (Hd : run = Panic \/ run = Ret evs).
  { rewrite <- Hx. apply write_dich. intros c w. apply extend_agrees. }
  split; [|destruct Hd; eauto]. split.
  - intros Hr. destruct (Exists_dec (fun c => c <> 10 /\ beyond cw c) s) as [E|E].
    { intros d. unfold beyond. destruct (Z.eq_dec d 10) as [E1|E1]; [right; intros [X _]; contradiction|].
      destruct (Z_le_dec (Z.of_nat (length cw)) d) as [E2|E2]; [left; auto|right; intros [_ X]; contradiction]. }
    { apply Exists_exists in E as (c & A & B & C). eauto. }
    exfalso. destruct (write_run_whole cw wfull s) with (right := r) (wm := wm) as (e' & _ & Hy); [|unfold run in Hr; congruence].
    apply Forall_forall. intros c Hc. destruct (Z.eq_dec c 10) as [|N]; [now left|right].
    intros F. apply beyond_at in F; [|auto]. apply E. apply Exists_exists. eauto.
  - intros (c & Hc & N & Hb). destruct Hd as [Hd|Hd]; [exact Hd|]. exfalso.
    destruct (at_in _ _ Hc) as (k & Hk). apply beyond_at in Hb; [|auto].
    unfold run in Hd. apply (write_visits cw wfull s _ _ _ 0 0 (-1)) with (k := k) (c := c) in Hd; [|lia|lia| |exact Hk].
    + destruct Hd; contradiction.
    + intros k' c' Hk' F. unfold at_ in F. replace (k' <? 0) with true in F by lia. discriminate.
Qed.

(** ** GetStringWidth *)
Lemma symw_rune_exact cw missing c : 0 <= c ->
  (symw_rune cw missing c = Panic <-> c = Z.of_nat (length cw)) /\
  (symw_rune cw missing c = Panic \/ exists w, symw_rune cw missing c = Ret w).
Proof.
  intros H. unfold symw_rune. destruct (Z.leb_spec c (Z.of_nat (length cw))) as [L|L].
  - destruct (at_ cw c) as [w|] eqn:E.
    + assert (c < Z.of_nat (length cw)).
      { unfold at_ in E. replace (c <? 0) with false in E by lia. assert (Z.to_nat c < length cw)%nat by (apply nth_error_Some; congruence). lia. }
      destruct (0 <? w); (split; [split; [discriminate|lia]|eauto]).
    + apply beyond_at in E; [|exact H]. unfold beyond in E. split; [split; [lia|reflexivity]|now left].
  - split; [split; [discriminate|lia]|eauto].
Qed.
Lemma symw_runes_exact cw missing t : Forall (fun c => 0 <= c) t -> forall w,
  (symw_runes cw missing t w = Panic <-> In (Z.of_nat (length cw)) t) /\
  (symw_runes cw missing t w = Panic \/ exists x, symw_runes cw missing t w = Ret x).
Proof.
  induction 1 as [|c t H Ht IH]; intros w; [split; [split; [discriminate|intros []]|right; eexists; reflexivity]|].
  cbn [symw_runes In]. destruct (symw_rune_exact cw missing c H) as [A B].
  destruct B as [B|[x B]].
  - rewrite B. cbn [obind]. split; [|now left]. split; [|reflexivity]. intros _. left. now apply A.
  - rewrite B. cbn [obind]. destruct (IH (w + x)) as [C D]. split; [|exact D]. rewrite C. split; [now right|].
    intros [F|F]; [|exact F]. exfalso. apply A in F. congruence.
Qed.
(** the part of a byte string before its first NUL *)
Fixpoint before_nul (t : bytes) : bytes :=
  match t with [] => [] | c :: t => if c =? 0 then [] else c :: before_nul t end.
Lemma symw_bytes_exact cw t : Forall (fun c => 0 <= c) t -> forall w,
  (symw_bytes cw t w = Panic <-> exists c, In c (before_nul t) /\ beyond cw c) /\
  (symw_bytes cw t w = Panic \/ exists x, symw_bytes cw t w = Ret x).
Proof.
  induction 1 as [|c t H Ht IH]; intros w.
  { split; [split; [discriminate|intros (c & [] & _)]|right; eexists; reflexivity]. }
  cbn [symw_bytes before_nul]. destruct (c =? 0).
  { split; [split; [discriminate|intros (x & [] & _)]|eauto]. }
  destruct (at_ cw c) as [x|] eqn:E.
  - destruct (IH (w + x)) as [C D]. split; [|exact D]. rewrite C. split.
    + intros (d & A & B). exists d. split; [now right|exact B].
    + intros (d & [<-|A] & B); [|eauto]. exfalso. apply beyond_at in B; [|exact H]. congruence.
  - apply beyond_at in E; [|exact H]. split; [|now left]. split; [|reflexivity]. intros _. exists c. split; [now left|exact E].
Qed.

(** ** C89 *)
(** the characters a call works on: the bytes, or the characters of a UTF-8
    font; carriage returns and, in the splitters, trailing newlines dropped *)
Definition chars_of (f : font) (txt : bytes) : list Z := if f_utf8 f then go_runes txt else txt.
Definition no_cr (t : bytes) : bytes := filter (fun c => negb (c =? 13)) t.
(** the character that brings the call down, if there is one *)
Definition fatal (f : font) (c : text_call) (ch : Z) : Prop :=
  match c with
  | CSplitLines _ txt => beyond (f_cw f) ch /\ exists s, is_body txt s /\ In ch s
  | CSplitText _ txt => beyond (f_cw f) ch /\ exists s k, go_runes txt = s ++ repeat 10 k /\ (forall p, s <> p ++ [10]) /\ In ch s
  | CMultiCell _ _ _ _ _ => False
  | CWrite _ _ _ txt => ch <> 10 /\ beyond (f_cw f) ch /\ In ch (chars_of f (no_cr txt)) /\
      ~ (f_utf8 f = true /\ no_cr txt = [32])
  | CStringWidth txt =>
      if f_utf8 f then ch = Z.of_nat (length (f_cw f)) /\ In ch (go_runes txt)
      else beyond (f_cw f) ch /\ In ch (before_nul txt)
  end.

Definition C89_statement : Prop :=
  forall (f : font) (c : text_call), Forall is_byte (text_of c) -> returns f c.

Lemma byte_nonneg t : Forall is_byte t -> Forall (fun c => 0 <= c) t.
Proof. apply Forall_impl. unfold is_byte. lia. Qed.
Lemma runes_nonneg t : Forall is_byte t -> Forall (fun c => 0 <= c) (go_runes t).
Proof. intros H. eapply Forall_impl; [|exact (go_runes_scalar t H)]. unfold scalar. lia. Qed.
Lemma trim_nonneg t : Forall (fun c => 0 <= c) t -> Forall (fun c => 0 <= c) (trim_nl t).
Proof. destruct (trim_nl_spec t) as (k & E & _). intros H. rewrite E in H. now apply Forall_app in H. Qed.
Lemma no_cr_bytes t : Forall is_byte t -> Forall is_byte (no_cr t).
Proof. rewrite !Forall_forall. intros H c Hc. apply filter_In in Hc as [Hc _]. auto. Qed.

Lemma utf8_1_bytes r : scalar r -> Forall is_byte (utf8_1 r) /\ no_cr (utf8_1 r) = if r =? 13 then [] else utf8_1 r.
Proof.
  intros H. unfold utf8_1, scalar in *. destruct (Z.ltb_spec r 128) as [A|A].
  { split; [repeat constructor; unfold is_byte; lia|]. unfold no_cr. cbn [filter]. destruct (r =? 13); reflexivity. }
  replace (r =? 13) with false by lia.
  assert (K : forall x, 128 <= x -> negb (x =? 13) = true) by (intros x Hx; replace (x =? 13) with false by lia; reflexivity).
  assert (M1 : 0 <= r mod 64 < 64) by (apply Z.mod_pos_bound; lia).
  assert (M2 : 0 <= (r / 64) mod 64 < 64) by (apply Z.mod_pos_bound; lia).
  assert (M3 : 0 <= (r / 4096) mod 64 < 64) by (apply Z.mod_pos_bound; lia).
  destruct (Z.ltb_spec r 2048) as [B|B]; [|destruct (Z.ltb_spec r 65536) as [C|C]].
  - assert (0 <= r / 64 < 32) by (split; [apply Z.div_pos; lia|apply Z.div_lt_upper_bound; lia]).
    split; [repeat constructor; unfold is_byte; lia|]. unfold no_cr. cbn [filter]. rewrite !K by lia. reflexivity.
  - assert (0 <= r / 4096 < 16) by (split; [apply Z.div_pos; lia|apply Z.div_lt_upper_bound; lia]).
    split; [repeat constructor; unfold is_byte; lia|]. unfold no_cr. cbn [filter]. rewrite !K by lia. reflexivity.
  - assert (0 <= r / 262144 < 8) by (split; [apply Z.div_pos; lia|apply Z.div_lt_upper_bound; lia]).
    split; [repeat constructor; unfold is_byte; lia|]. unfold no_cr. cbn [filter]. rewrite !K by lia. reflexivity.
Qed.
Lemma utf8_is_bytes t : Forall scalar t -> Forall is_byte (utf8 t).
Proof.
  induction 1 as [|r t H Ht IH]; [constructor|]. unfold utf8. cbn [flat_map]. apply Forall_app. split; [|exact IH].
  now apply utf8_1_bytes.
Qed.
Lemma no_cr_utf8 t : Forall scalar t -> no_cr (utf8 t) = utf8 (no_cr t).
Proof.
  induction 1 as [|r t H Ht IH]; [reflexivity|]. unfold utf8 in *. cbn [flat_map]. unfold no_cr in *. rewrite filter_app.
  cbn [filter]. rewrite IH. destruct (utf8_1_bytes r H) as [_ E]. unfold no_cr in E. rewrite E.
  destruct (r =? 13); reflexivity.
Qed.

(** for every font and every text: a call either returns or panics, and it
    panics exactly when the text holds a character that is fatal for it *)
Theorem C89_exact_partial :
  forall (f : font) (c : text_call), Forall is_byte (text_of c) ->
    (panics f c <-> exists ch, fatal f c ch) /\ (panics f c \/ returns f c).
Proof.
  intros f c Hb. destruct c as [wmax txt|wmax txt|rtl wmax txt border align|ind wroom wfull txt|txt];
    cbn [text_of panics returns fatal] in *.
  - unfold split_lines. rewrite strip_cr. fold (no_cr txt).
    destruct (split_exact sl_sep (f_cw f) wmax (trim_nl (no_cr txt)) eq_refl) as [A B].
    { apply trim_nonneg, byte_nonneg, no_cr_bytes, Hb. }
    split; [|exact B]. rewrite A. split.
    + intros (ch & C & D). exists ch. split; [exact D|]. exists (trim_nl (no_cr txt)). split; [|exact C].
      unfold no_cr. rewrite <- strip_cr. apply body_trim.
    + intros (ch & D & s & C & E). exists ch. split; [|exact D].
      pose proof (body_trim txt) as X. rewrite strip_cr in X. now rewrite (body_unique _ _ _ C X) in E.
  - unfold split_text, split_text_runes.
    destruct (split_exact st_sep (f_cw f) wmax (trim_nl (go_runes txt)) eq_refl) as [A B].
    { apply trim_nonneg, runes_nonneg, Hb. }
    split.
    + transitivity (split_run st_sep (f_cw f) wmax (trim_nl (go_runes txt)) = Panic).
      { destruct B as [-> |[r ->]]; cbn [obind]; (split; [try reflexivity; discriminate|try reflexivity; discriminate]). }
      rewrite A. split.
      * intros (ch & C & D). exists ch. split; [exact D|]. destruct (trim_nl_spec (go_runes txt)) as (k & E & F). eauto 6.
      * intros (ch & D & s & k & E & F & C). exists ch. split; [|exact D]. now rewrite (trim_nl_unique _ _ _ E F).
    + destruct B as [-> |[r ->]]; cbn [obind]; eauto.
  - destruct (multi_cell_main (f_utf8 f) rtl (f_cw f) (f_missing f) wmax txt border align) as [[_ (r & E)]|[_ (r & E & _)]];
      rewrite E; (split; [split; [discriminate|intros (? & [])]|right; eauto]).
  - unfold write. rewrite strip_cr. fold (no_cr txt). cbv zeta.
    change (if f_utf8 f then go_runes (no_cr txt) else no_cr txt) with (chars_of f (no_cr txt)).
    destruct (f_utf8 f && (Z.of_nat (length (chars_of f (no_cr txt))) =? 1) && beqb (no_cr txt) [32]) eqn:E.
    + apply andb_true_iff in E as [E E3]. apply andb_true_iff in E as [E1 _]. apply beqb_eq in E3.
      split; [|right; eauto]. split; [discriminate|]. intros (ch & _ & _ & _ & N). now elim N.
    + destruct (write_exact (f_cw f) ind wroom wfull (chars_of f (no_cr txt))) as [A B].
      { unfold chars_of. destruct (f_utf8 f); [apply runes_nonneg, no_cr_bytes, Hb|apply byte_nonneg, no_cr_bytes, Hb]. }
      split; [|exact B]. rewrite A. split.
      * intros (ch & C & D & F). exists ch. repeat split; try assumption.
        intros [X Y]. unfold chars_of in E. rewrite X, Y in E. discriminate E.
      * intros (ch & D & F & C & _). eauto.
  - unfold string_symbol_width. destruct (f_utf8 f).
    + destruct (symw_runes_exact (f_cw f) (f_missing f) _ (runes_nonneg _ Hb) 0) as [A B].
      split; [|exact B]. rewrite A. split; [intros H; eauto|intros (ch & -> & H); exact H].
    + destruct (symw_bytes_exact (f_cw f) _ (byte_nonneg _ Hb) 0) as [A B].
      split; [|exact B]. rewrite A. split; intros (ch & C & D); eauto.
Qed.
Print Assumptions C89_exact_partial.

(** MultiCell never panics *)
Theorem C89_multicell_partial :
  forall (f : font) rtl wmax txt border align, Forall is_byte txt -> returns f (CMultiCell rtl wmax txt border align).
Proof.
  intros f rtl wmax txt border align H.
  destruct (C89_exact_partial f (CMultiCell rtl wmax txt border align) H) as [A [B|B]]; [|exact B].
  apply A in B as (? & []).
Qed.
Print Assumptions C89_multicell_partial.

Lemma in_before_nul t c : In c (before_nul t) -> In c t.
Proof.
  induction t as [|d t IH]; [intros []|]. cbn [before_nul]. destruct (d =? 0); [intros []|].
  intros [->|H]; [now left|right; auto].
Qed.
(** the fonts of the library: one with 256 widths prints every text, whatever its
    bytes, as long as it is not split as UTF-8; one with 65536 widths prints
    every text of characters up to U+FFFF *)
Theorem C89_fonts_partial :
  (forall f c, f_utf8 f = false -> length (f_cw f) = 256%nat ->
     (forall wmax t, c <> CSplitText wmax t) ->
     Forall is_byte (text_of c) -> returns f c) /\
  (forall f c t, f_utf8 f = true -> Z.of_nat (length (f_cw f)) = 65536 ->
     Forall scalar t -> Forall (fun ch => ch < 65536) t -> text_of c = utf8 t -> returns f c).
Proof.
  split.
  - intros f c U L N H. destruct (C89_exact_partial f c H) as [A [B|B]]; [|exact B]. exfalso.
    apply A in B as (ch & B). rewrite Forall_forall in H.
    assert (K : In ch (text_of c) -> beyond (f_cw f) ch -> False).
    { intros X Y. apply H in X. unfold is_byte in X. unfold beyond in Y. lia. }
    destruct c as [wmax txt|wmax txt|rtl wmax txt border align|ind wroom wfull txt|txt]; cbn [fatal text_of] in *.
    + destruct B as [Y (s & (k & E & _) & X)]. apply K; [|exact Y].
      assert (Z0 : In ch (filter (fun c => negb (c =? 13)) txt)) by (rewrite E; apply in_or_app; now left).
      now apply filter_In in Z0.
    + now elim (N wmax txt).
    + exact B.
    + destruct B as (_ & Y & X & _). apply K; [|exact Y]. unfold chars_of in X. rewrite U in X. now apply filter_In in X.
    + rewrite U in B. destruct B as [Y X]. apply K; [|exact Y]. now apply in_before_nul.
  - intros f c t U L S M E.
    assert (H : Forall is_byte (text_of c)) by (rewrite E; apply utf8_is_bytes; exact S).
    destruct (C89_exact_partial f c H) as [A [B|B]]; [|exact B]. exfalso.
    apply A in B as (ch & B). rewrite Forall_forall in M.
    assert (K : In ch t -> beyond (f_cw f) ch -> False).
    { intros X Y. apply M in X. unfold beyond in Y. lia. }
    destruct c as [wmax txt|wmax txt|rtl wmax txt border align|ind wroom wfull txt|txt]; cbn [fatal text_of] in *.
    + destruct B as [Y (s & (k & F & _) & X)].
      assert (Z0 : In ch (filter (fun c => negb (c =? 13)) txt)) by (rewrite F; apply in_or_app; now left).
      apply filter_In in Z0 as [Z0 _]. rewrite Forall_forall in H. apply H in Z0. unfold is_byte in Z0. unfold beyond in Y. lia.
    + destruct B as [Y (s & k & F & _ & X)]. apply K; [|exact Y]. rewrite E, go_runes_utf8 in F by exact S.
      rewrite F. apply in_or_app. now left.
    + exact B.
    + destruct B as (_ & Y & X & _). unfold chars_of in X. rewrite U, E in X. 
      rewrite no_cr_utf8, go_runes_utf8 in X; [|apply Forall_forall; intros x Hx; apply filter_In in Hx as [Hx _]; rewrite Forall_forall in S; auto|exact S].
      apply K; [|exact Y]. now apply filter_In in X.
    + rewrite U in B. destruct B as [-> X]. rewrite E, go_runes_utf8 in X by exact S. apply M in X. lia.
Qed.
Print Assumptions C89_fonts_partial.

(** a character beyond U+FFFF brings Write and SplitText down, in every UTF-8 font *)
Theorem C89_beyond_bmp_refuted :
  ~ C89_statement /\
  (forall f ind wroom wfull a b r, f_utf8 f = true -> Z.of_nat (length (f_cw f)) = 65536 ->
     Forall scalar (a ++ r :: b) -> 65536 <= r ->
     panics f (CWrite ind wroom wfull (utf8 (a ++ r :: b)))) /\
  (forall f a b, f_utf8 f = true -> Z.of_nat (length (f_cw f)) = 65536 ->
     Forall scalar (a ++ 65536 :: b) -> panics f (CStringWidth (utf8 (a ++ 65536 :: b)))) /\
  (* no font: SplitLines and GetStringWidth of any text with a letter in it *)
  (forall f wmax t p q, f_cw f = [] -> f_utf8 f = false -> t = p ++ 65 :: q -> ~ In 0 p -> Forall is_byte t ->
     panics f (CSplitLines wmax t) /\ panics f (CStringWidth t)).
Proof.
  assert (P2 : forall f ind wroom wfull a b r, f_utf8 f = true -> Z.of_nat (length (f_cw f)) = 65536 ->
     Forall scalar (a ++ r :: b) -> 65536 <= r -> panics f (CWrite ind wroom wfull (utf8 (a ++ r :: b)))).
  { intros f ind wroom wfull a b r U L S H. apply C89_exact_partial; [now apply utf8_is_bytes|].
    exists r. cbn [fatal]. assert (Hr : In r (no_cr (a ++ r :: b))).
    { apply filter_In. split; [apply in_or_app; right; now left|]. replace (r =? 13) with false by lia. reflexivity. }
    split; [lia|]. split; [unfold beyond; lia|]. unfold chars_of. rewrite U, no_cr_utf8 by exact S.
    assert (S' : Forall scalar (no_cr (a ++ r :: b))).
    { apply Forall_forall. intros x Hx. apply filter_In in Hx as [Hx _]. rewrite Forall_forall in S. auto. }
    rewrite go_runes_utf8 by exact S'. split; [exact Hr|]. intros [_ E].
    assert (X : go_runes (utf8 (no_cr (a ++ r :: b))) = go_runes [32]) by now rewrite E.
    rewrite go_runes_utf8 in X by exact S'. change (go_runes [32]) with [32] in X. rewrite X in Hr. destruct Hr as [Hr|[]]. lia. }
  split; [|split; [exact P2|split]].
  - intros F. set (f := {| f_utf8 := true; f_cw := []; f_missing := 0 |}).
    destruct (F f (CStringWidth [0])) as [r E]; [repeat constructor; unfold is_byte; lia|]. discriminate E.
  - intros f a b U L S. apply C89_exact_partial; [now apply utf8_is_bytes|]. exists 65536. cbn [fatal]. rewrite U, L.
    split; [reflexivity|]. rewrite go_runes_utf8 by exact S. apply in_or_app. right. now left.
  - intros f wmax t p q C U -> N H. split; (apply C89_exact_partial; [exact H|]); exists 65; cbn [fatal]; rewrite ?U, ?C.
    + split; [unfold beyond; cbn; lia|]. exists (trim_nl (no_cr (p ++ 65 :: q))). split.
      * unfold no_cr. rewrite <- strip_cr. apply body_trim.
      * destruct (trim_nl_spec (no_cr (p ++ 65 :: q))) as (k & E & _).
        assert (X : In 65 (no_cr (p ++ 65 :: q))) by (apply filter_In; split; [apply in_or_app; right; now left|reflexivity]).
        rewrite E in X. apply in_app_or in X as [X|X]; [exact X|]. apply repeat_spec in X. discriminate X.
    + split; [unfold beyond; cbn; lia|]. clear -N. induction p as [|c p IH]; [now left|]. cbn [app before_nul].
      replace (c =? 0) with false by (symmetry; apply Z.eqb_neq; intros ->; apply N; now left).
      right. apply IH. intros X. apply N. now right.
Qed.
Print Assumptions C89_beyond_bmp_refuted.

(** non-vacuity: the two kinds of font, with texts that print *)
Example C89_ex :
  returns {| f_utf8 := false; f_cw := repeat 500 256; f_missing := 0 |} (CWrite false 2000 2000 (bs "ab cd" ++ [255])) /\
  panics {| f_utf8 := true; f_cw := repeat 500 256; f_missing := 0 |} (CWrite false 2000 2000 (utf8 [97; 256])) /\
  fatal {| f_utf8 := true; f_cw := repeat 500 256; f_missing := 0 |} (CStringWidth (utf8 [97; 256])) 256 /\
  returns {| f_utf8 := true; f_cw := repeat 500 256; f_missing := 0 |} (CMultiCell false 2000 (utf8 [97; 256]) [] []).
Proof.
  split; [|split; [|split]].
  - cbn [returns f_cw f_utf8]. eexists. vm_compute. reflexivity.
  - vm_compute. reflexivity.
  - cbn [fatal f_utf8]. split; [reflexivity|]. right. now left.
  - cbn [returns]. eexists. right. vm_compute. reflexivity.
Qed.
