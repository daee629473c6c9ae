(** Property theorems C01-C06 (string codecs). *)
From Verif Require Import Base TextModel TextSpec TextProofs.
From Coq Require Import String.
Open Scope Z_scope.

(** C01: every byte string written as a literal string is read back exactly,
    and the reader stops at the closing parenthesis that was written. *)
Theorem C01_literal_string_roundtrip :
  forall (s rest : bytes), read_string (textstring s ++ rest) = Some (s, rest).
Proof. exact textstring_roundtrip. Qed.
Print Assumptions C01_literal_string_roundtrip.

Example C01_ex : read_string (textstring (bs "a(b\)"%string ++ [13; 10; 92]) ++ bs ">>"%string)
  = Some (bs "a(b\)"%string ++ [13; 10; 92], bs ">>"%string).
Proof. reflexivity. Qed.
(** the emitted bytes do contain escapes, i.e. the reader has work to do *)
Example C01_ex_emitted : textstring [40; 92; 13] = [40; 92; 40; 92; 92; 92; 114; 41].
Proof. reflexivity. Qed.

(** C01, text shown with a UTF-8 font: the Tj operand of every BMP text reads
    back as its UTF-16BE form. *)
Theorem C01_cell_utf8_operand :
  forall (t : list Z) (rest : bytes),
    Forall (fun r => 0 <= r < 65536) t ->
    exists op, cell_operand true (fun s => utf8toutf16 s false) (utf8 t) = Ret op
               /\ read_string (op ++ rest) = Some (utf16be t, rest).
Proof.
  intros t rest H. eexists. split.
  - unfold cell_operand. rewrite utf8toutf16_bmp by exact H. reflexivity.
  - exact (textstring_roundtrip (utf16be t) rest).
Qed.
Print Assumptions C01_cell_utf8_operand.
Example C01_cell_utf8_ex : exists op,
  cell_operand true (fun s => utf8toutf16 s false) (utf8 [40; 8364; 23383]) = Ret op
  /\ op = [40; 0; 92; 40; 32; 172; 91; 87; 41].
Proof. eexists. split; reflexivity. Qed.

(** C02: full statement (false for the code, see _refuted): the bytes given to
    CellFormat with a single-byte font are the bytes read back. *)
Definition C02_statement : Prop :=
  forall (s rest : bytes) op,
    cell_operand false (fun x => utf8toutf16 x false) s = Ret op ->
    read_string (op ++ rest) = Some (s, rest).
Theorem C02_cell_operand_refuted : ~ C02_statement.
Proof.
  intros H. specialize (H [13] [] _ eq_refl). vm_compute in H. discriminate.
Qed.
Print Assumptions C02_cell_operand_refuted.

(** C02, what holds: exactly the strings without CR are read back; in general
    each CR (or CR LF) is read as one LF, and nothing else changes. *)
Theorem C02_cell_operand_partial :
  forall (s rest : bytes) op,
    cell_operand false (fun x => utf8toutf16 x false) s = Ret op ->
    read_string (op ++ rest) = Some (cr_to_lf s, rest) /\ (~ In 13 s -> cr_to_lf s = s).
Proof.
  intros s rest op [= <-]. split; [exact (cell_operand_reads s rest)|exact (cr_to_lf_nocr s)].
Qed.
Print Assumptions C02_cell_operand_partial.
Example C02_ex : cr_to_lf (bs "x"%string ++ [13; 10] ++ bs "(y"%string ++ [13]) = bs "x"%string ++ [10] ++ bs "(y"%string ++ [10].
Proof. reflexivity. Qed.

(** C03 *)
Theorem C03_utf16_of_bmp_text :
  forall (t : list Z) (bom : bool),
    Forall (fun r => scalar r /\ r < 65536) t ->
    utf8toutf16 (utf8 t) bom = Ret ((if bom then [254; 255] else []) ++ utf16be t).
Proof.
  intros t bom H. apply utf8toutf16_bmp. eapply Forall_impl; [|exact H].
  cbv beta. unfold scalar. intros r Hr. lia.
Qed.
Print Assumptions C03_utf16_of_bmp_text.
Example C03_ex : utf8toutf16 (utf8 [65; 233; 8364; 65533]) true
  = Ret [254; 255; 0; 65; 0; 233; 32; 172; 255; 253].
Proof. reflexivity. Qed.

(** C04: full statement, false for the code. *)
Definition C04_statement : Prop :=
  (forall t bom, Forall scalar t ->
     utf8toutf16 (utf8 t) bom = Ret ((if bom then [254; 255] else []) ++ utf16be t))
  /\ (forall s bom, Forall is_byte s -> utf8toutf16 s bom <> Panic).
Theorem C04_supplementary_refuted :
  (exists t, Forall scalar t /\ utf8toutf16 (utf8 t) false <> Ret (utf16be t)
             /\ utf8toutf16 (utf8 t) false <> Panic)
  /\ (exists s, Forall is_byte s /\ utf8toutf16 s true = Panic)
  /\ ~ C04_statement.
Proof.
  assert (S1 : Forall scalar [128512]) by (repeat constructor; unfold scalar; lia).
  split; [|split].
  - exists [128512]. split; [exact S1|]. split; intros H; vm_compute in H; discriminate.
  - exists [226; 130]. split; [repeat constructor; unfold is_byte; lia|reflexivity].
  - intros [H _]. specialize (H [128512] false S1). vm_compute in H. discriminate.
Qed.
Print Assumptions C04_supplementary_refuted.

(** C04, what holds: a panic happens exactly when the last lead byte (>= 0xC0)
    is cut short, and otherwise whole 16-bit units come out. *)
Theorem C04_no_panic_partial :
  forall (s : bytes) (bom : bool),
    (utf8toutf16 s bom = Panic <-> complete s = false)
    /\ (forall r, utf8toutf16 s bom = Ret r -> Z.even (Z.of_nat (List.length r)) = true).
Proof.
  intros s bom. pose proof (utf16_loop_total (List.length s) s (le_n _)) as H.
  unfold utf8toutf16. destruct (utf16_loop s) as [r| |]; cbn [obind].
  - destruct H as [-> H]. split; [split; discriminate|]. intros r' [= <-].
    destruct bom; cbn [app List.length]; [|exact H]. now rewrite !Nat2Z.inj_succ, !Z.even_succ, Z.odd_succ.
  - rewrite H. split; [split; reflexivity|discriminate].
  - contradiction.
Qed.
Print Assumptions C04_no_panic_partial.
(** every valid UTF-8 text in the BMP is complete *)
Example C04_ex : complete (utf8 [65; 233; 8364]) = true /\ complete [226; 130] = false.
Proof. split; reflexivity. Qed.

(** C05.  Independent description of the translation a map file stands for:
    the line that counts is the last one listing the character. *)
Definition lists {line} (parse : line -> option (option (Z * Z))) (l : line) (r c : Z) : Prop :=
  parse l = Some (Some (c, r)) /\ 128 <= c.
Definition translates {line} (parse : line -> option (option (Z * Z))) (ls : list line) (r b : Z) : Prop :=
  (r < 128 /\ b = r)
  \/ (128 <= r /\ exists pre l post c, ls = pre ++ l :: post /\ lists parse l r c
        /\ b = c mod 256 /\ (forall l' c', In l' post -> ~ lists parse l' r c'))
  \/ (128 <= r /\ b = 46 /\ forall l c, In l ls -> ~ lists parse l r c).

Theorem C05_translator :
  forall (line : Type) (parse : line -> option (option (Z * Z))) (ls : list line) (t : list Z),
    Forall (fun l => parse l <> None) ls -> Forall scalar t ->
    snd (unicode_translator line parse ls) = false
    /\ Forall2 (translates parse ls) t (fst (unicode_translator line parse ls) (utf8 t)).
Proof.
  intros line parse ls t Hls Ht. rewrite unicode_translator_ok by exact Hls. cbn [fst snd].
  split; [reflexivity|]. unfold rep_closure. rewrite go_runes_utf8 by exact Ht.
  assert (Hone : forall r, scalar r -> translates parse ls r (rep_rune (rev (entries parse ls)) r)).
  2:{ clear Hls. induction Ht as [|r t Hr Ht IH]; cbn [map]; constructor; [now apply Hone|exact IH]. }
  clear t Ht Hls. intros r Hr. unfold rep_rune, translates.
  destruct (r <? 128) eqn:E.
  { left. unfold u8, scalar in *. split; [lia|]. apply Z.mod_small. lia. }
  right.
  enough (Hgoal : match rmap_get (rev (entries parse ls)) r with
     | Some b => exists pre l post c, ls = pre ++ l :: post /\ lists parse l r c
        /\ b = c mod 256 /\ (forall l' c', In l' post -> ~ lists parse l' r c')
     | None => forall l c, In l ls -> ~ lists parse l r c end).
  { destruct (rmap_get (rev (entries parse ls)) r); [left|right]; (split; [lia|]); auto. }
  clear E Hr. induction ls as [|l ls IH]; [intros ? ? []|].
  unfold entries. cbn [flat_map]. fold (entries parse ls). rewrite rev_app_distr, rmap_get_app.
  destruct (rmap_get (rev (entries parse ls)) r) as [b|].
  - destruct IH as (pre & l0 & post & c & -> & H). exists (l :: pre), l0, post, c. now split.
  - assert (Hno : (forall c, ~ lists parse l r c) ->
        forall l' c', In l' (l :: ls) -> ~ lists parse l' r c').
    { intros Hl l' c' [->|Hin]; [apply Hl|now apply IH]. }
    destruct (parse l) as [[[c u]|]|] eqn:P; cbn [rev app rmap_get].
    + destruct (128 <=? c) eqn:Ec; cbn [rev app rmap_get].
      * destruct (r =? u) eqn:Eu.
        -- apply Z.eqb_eq in Eu. subst u. exists [], l, ls, c.
           split; [reflexivity|]. split; [split; [exact P|lia]|]. split; [reflexivity|exact IH].
        -- apply Hno. intros c' [Hp _]. rewrite P in Hp. injection Hp as -> ->. lia.
      * apply Hno. intros c' [Hp Hc]. rewrite P in Hp. injection Hp as -> ->. lia.
    + apply Hno. intros c' [Hp _]. congruence.
    + apply Hno. intros c' [Hp _]. congruence.
Qed.
Print Assumptions C05_translator.
Example C05_ex :
  let parse := fun l : option (Z * Z) => Some l in
  let ls := [Some (128, 8364); Some (65, 65); None; Some (233, 233)] in
  Forall (fun l => parse l <> None) ls /\
  fst (unicode_translator _ parse ls) (utf8 [65; 8364; 233; 1234]) = [65; 128; 233; 46].
Proof. split; [repeat constructor; discriminate|reflexivity]. Qed.

(** C05, error reporting.  The documentation says a non-conforming line is an
    error and the function then translates nothing; the code only reports an
    error when no conforming line follows it. *)
Theorem C05_bad_line_reported_refuted :
  exists (ls : list (option (option (Z * Z)))),
    In None ls /\ snd (unicode_translator _ (fun l => l) ls) = false
    /\ fst (unicode_translator _ (fun l => l) ls) (utf8 [8364]) = [128].
Proof.
  exists [Some (Some (128, 8364)); None; Some (Some (65, 65))].
  split; [simpl; auto|]. split; reflexivity.
Qed.
Print Assumptions C05_bad_line_reported_refuted.
Theorem C05_bad_line_reported_partial :
  forall (line : Type) (parse : line -> option (option (Z * Z))) pre l post,
    parse l = None -> Forall (fun l' => parse l' = None \/ parse l' = Some None) post ->
    snd (unicode_translator line parse (pre ++ l :: post)) = true
    /\ forall s, fst (unicode_translator line parse (pre ++ l :: post)) s = s.
Proof.
  intros line parse pre l post Hl Hpost. unfold unicode_translator.
  pose proof (translator_loop_err parse (pre ++ l :: post) [] false) as He.
  destruct (translator_loop line parse (pre ++ l :: post) [] false) as [m e]. cbn [snd] in He.
  assert (Htrue : e = true); [|clear He; rewrite Htrue; now split].
  rewrite He, fold_left_app. cbn [fold_left]. rewrite Hl. clear He Hl.
  induction Hpost as [|l' post [H|H] Hpost IH]; [reflexivity| |]; cbn [fold_left]; rewrite H; exact IH.
Qed.
Print Assumptions C05_bad_line_reported_partial.

(** C06 *)
Theorem C06_reverse_text :
  forall t : list Z, Forall scalar t ->
    reverse_text (utf8 t) = utf8 (rev t)
    /\ reverse_text (reverse_text (utf8 t)) = utf8 t.
Proof.
  intros t H. split; [exact (reverse_text_utf8 t H)|exact (reverse_text_invol t H)].
Qed.
Print Assumptions C06_reverse_text.
Example C06_ex : Forall scalar [1488; 65; 128512] /\
  reverse_text (utf8 [1488; 65; 128512]) = utf8 [128512; 65; 1488].
Proof. split; [repeat constructor; unfold scalar; lia|reflexivity]. Qed.
