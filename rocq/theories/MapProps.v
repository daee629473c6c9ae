(** C93: translators from the text of a code page map. *)
From Verif Require Import Base TextModel TextSpec TextProofs TextProps MapModel.
From Coq Require Import String.
Open Scope Z_scope.
Notation length := List.length.
Local Notation "a +++ b" := (List.app a b) (at level 60, right associativity, only parsing).

(** ** Map files *)
(** an entry: byte, character, name of the glyph *)
Definition entry : Type := Z * Z * bytes.
Definition code (e : entry) : Z := fst (fst e).
Definition char (e : entry) : Z := snd (fst e).
Definition hex_digit (upper : bool) (v : Z) : Z := if v <? 10 then 48 + v else (if upper then 55 else 87) + v.
Definition hex2 (upper : bool) (v : Z) : bytes := [hex_digit upper (v / 16); hex_digit upper (v mod 16)].
Definition hex4 (upper : bool) (v : Z) : bytes := hex2 upper (v / 256) +++ hex2 upper (v mod 256).
(** !80 U+20AC Euro *)
Definition entry_line (upper : bool) (e : entry) : bytes := bs "!" +++ hex2 upper (code e) +++ bs " U+" +++ hex4 upper (char e) +++ bs " " +++ snd e.
Definition map_file (upper : bool) (line_end : bytes) (es : list entry) : bytes := List.concat (map (fun e => entry_line upper e +++ line_end) es).
(** a byte, a character of the Basic Multilingual Plane, a name in visible ASCII, less than 65000 characters *)
Definition name_ok (e : entry) : Prop := snd e <> [] /\ Forall (fun c => 33 <= c <= 126) (snd e).
Definition entry_ok (e : entry) : Prop := 0 <= code e < 256 /\ 0 <= char e < 65536 /\ name_ok e /\ Z.of_nat (length (snd e)) < 65000.

(** what the map says for character [r]: the last entry that lists it for a byte of the upper half *)
Definition listed (e : entry) (r : Z) : Prop := char e = r /\ 128 <= code e.
Definition mapped (es : list entry) (r b : Z) : Prop :=
  (r < 128 /\ b = r) \/
  (128 <= r /\ exists a e c, es = a +++ e :: c /\ listed e r /\ b = code e /\ forall e', In e' c -> ~ listed e' r) \/
  (128 <= r /\ b = 46 /\ forall e, In e es -> ~ listed e r).

Lemma hex_value_digit u v : 0 <= v < 16 -> hex_value (hex_digit u v) = Some v.
Proof.
  intros H. assert (G : Forall (fun v => forall u, hex_value (hex_digit u v) = Some v) [0;1;2;3;4;5;6;7;8;9;10;11;12;13;14;15]) by (repeat constructor; intros []; reflexivity).
  rewrite Forall_forall in G. apply G. cbn [In]. lia.
Qed.
Lemma hex_digit_ascii u v : 0 <= v < 16 -> 33 <= hex_digit u v <= 126.
Proof. intros H. unfold hex_digit. destruct (v <? 10), u; lia. Qed.
Lemma not_space c : 33 <= c <= 126 -> is_space c = false.
Proof. intros H. unfold is_space. lia. Qed.
Lemma skip_none c t : 33 <= c <= 126 -> skip_space (c :: t) = c :: t.
Proof. intros H. cbn [skip_space]. now rewrite not_space. Qed.
Lemma scan_hex2 u v t : 0 <= v < 256 -> scan_hex 2 (hex2 u v +++ t) = Some (v, t).
Proof.
  intros H. assert (H1 : 0 <= v / 16 < 16) by lia. assert (H2 : 0 <= v mod 16 < 16) by lia.
  unfold scan_hex, hex2. cbn [app]. rewrite skip_none by now apply hex_digit_ascii. rewrite hex_value_digit by exact H1.
  cbn [Nat.pred digits app]. rewrite hex_value_digit by exact H2. do 2 f_equal. lia.
Qed.
Lemma scan_hex4 u v t : 0 <= v < 65536 -> scan_hex 4 (hex4 u v +++ t) = Some (v, t).
Proof.
  intros H. unfold hex4. assert (H1 : 0 <= v / 256 < 256) by lia. assert (H2 : 0 <= v mod 256 < 256) by lia.
  set (a := v / 256) in *. set (b := v mod 256) in *. assert (Hv : v = 256 * a + b) by (unfold a, b; lia). clearbody a b.
  assert (A1 : 0 <= a / 16 < 16) by lia. assert (A2 : 0 <= a mod 16 < 16) by lia. assert (B1 : 0 <= b / 16 < 16) by lia. assert (B2 : 0 <= b mod 16 < 16) by lia.
  unfold scan_hex, hex2. cbn [app]. rewrite skip_none by now apply hex_digit_ascii. rewrite hex_value_digit by exact A1.
  cbn [Nat.pred digits app]. rewrite hex_value_digit by exact A2. rewrite hex_value_digit by exact B1. rewrite hex_value_digit by exact B2. do 2 f_equal. lia.
Qed.
Lemma hex2_ascii u v : 0 <= v < 256 -> Forall (fun c => 32 <= c <= 126) (hex2 u v).
Proof. intros H. pose proof (hex_digit_ascii u (v / 16)). pose proof (hex_digit_ascii u (v mod 16)). repeat constructor; lia. Qed.
Lemma line_ascii u e : 0 <= code e < 256 -> 0 <= char e < 65536 -> name_ok e -> Forall (fun c => 32 <= c <= 126) (entry_line u e).
Proof.
  intros H1 H2 (_ & H3). unfold entry_line, hex4. repeat (apply Forall_app; split).
  - apply Forall_forall. intros c Hc. cbn in Hc. lia.
  - now apply hex2_ascii.
  - apply Forall_forall. intros c Hc. cbn in Hc. lia.
  - apply hex2_ascii. lia.
  - apply hex2_ascii. lia.
  - apply Forall_forall. intros c Hc. cbn in Hc. lia.
  - eapply Forall_impl; [|exact H3]. cbn. lia.
Qed.
Lemma ascii_utf8 l : Forall (fun c => 32 <= c <= 126) l -> go_runes l = l.
Proof.
  intros F. assert (E : utf8 l = l).
  { induction F as [|c l H F IH]; [reflexivity|]. unfold utf8 in *. cbn [flat_map]. rewrite IH. unfold utf8_1. replace (c <? 128) with true by lia. reflexivity. }
  rewrite <- E at 1. apply go_runes_utf8. eapply Forall_impl; [|exact F]. unfold scalar. cbn. lia.
Qed.
Lemma trim_line l x y : Forall (fun c => 33 <= c <= 126) [x; y] -> trim_space (x :: l +++ [y]) = x :: l +++ [y].
Proof.
  intros F. inversion F as [|? ? Hx F']; subst. inversion F' as [|? ? Hy _]; subst. unfold trim_space. rewrite skip_none by exact Hx.
  rewrite app_comm_cons, rev_app_distr. cbn [rev app]. rewrite skip_none by exact Hy.
  change (y :: rev l +++ [x]) with ([y] +++ rev (x :: l)). rewrite rev_app_distr, rev_involutive. reflexivity.
Qed.
Lemma parse_entry u e : 0 <= code e < 256 -> 0 <= char e < 65536 -> name_ok e -> parse_line (entry_line u e) = Some (Some (code e, char e)).
Proof.
  intros H1 H2 H3. unfold parse_line. rewrite ascii_utf8 by now apply line_ascii. destruct H3 as (N & F).
  assert (T : trim_space (entry_line u e) = entry_line u e).
  { unfold entry_line. destruct (exists_last N) as (n & y & En). rewrite En in F |- *. rewrite !app_assoc. change ((((((bs "!" +++ hex2 u (code e)) +++ bs " U+") +++ hex4 u (char e)) +++ bs " ") +++ n) +++ [y]) with (33 :: ((((hex2 u (code e) +++ bs " U+") +++ hex4 u (char e)) +++ bs " ") +++ n) +++ [y]).
    apply trim_line. apply Forall_app in F as [_ F]. inversion F; subst. repeat constructor; lia. }
  rewrite T. assert (S : scan_line (entry_line u e) = Some (code e, char e)).
  { unfold scan_line, entry_line. match goal with |- context [scan_char 33 (bs "!" +++ ?x)] => change (scan_char 33 (bs "!" +++ x)) with (Some x) end. cbv iota beta. rewrite scan_hex2 by exact H1.
    change (scan_space (bs " U+" +++ hex4 u (char e) +++ bs " " +++ snd e)) with (Some (bs "U+" +++ hex4 u (char e) +++ bs " " +++ snd e)). cbv iota beta.
    change (scan_char 85 (bs "U+" +++ hex4 u (char e) +++ bs " " +++ snd e)) with (Some (bs "+" +++ hex4 u (char e) +++ bs " " +++ snd e)). cbv iota beta.
    change (scan_char 43 (bs "+" +++ hex4 u (char e) +++ bs " " +++ snd e)) with (Some (hex4 u (char e) +++ bs " " +++ snd e)). cbv iota beta.
    rewrite scan_hex4 by exact H2. change (scan_space (bs " " +++ snd e)) with (Some (skip_space (snd e))). cbv iota beta.
    destruct (snd e) as [|c t]; [now destruct N|]. inversion F; subst. rewrite !skip_none by assumption. reflexivity. }
  destruct (entry_line u e) as [|c t]; [discriminate S|]. rewrite S. reflexivity.
Qed.

(** ** Lines *)
Lemma lines_one l n cur r : Forall (fun c => c <> 10) l -> n + Z.of_nat (length l) < 65536 ->
  map_lines_from n cur (l +++ 10 :: r) = drop_cr (rev l +++ cur) :: map_lines_from 0 [] r.
Proof.
  intros F. revert n cur. induction F as [|c l H F IH]; intros n cur Hn.
  - cbn [app map_lines_from rev]. replace (65536 <=? n) with false by (cbn in Hn; lia). reflexivity.
  - cbn [length] in Hn. rewrite <- app_comm_cons. cbn [map_lines_from]. replace (65536 <=? n) with false by lia. rewrite (proj2 (Z.eqb_neq _ _) H).
    rewrite IH by lia. cbn [rev]. now rewrite <- app_assoc.
Qed.
Definition line_ends : list bytes := [[10]; [13; 10]].
Lemma lines_entry u e le r : In le line_ends -> entry_ok e -> map_lines (entry_line u e +++ le +++ r) = entry_line u e :: map_lines r.
Proof.
  intros Hle (H1 & H2 & H3 & H4). pose proof (line_ascii u e H1 H2 H3) as A. unfold map_lines.
  assert (Hl : Z.of_nat (length (entry_line u e)) < 65100). { unfold entry_line, hex4, hex2. rewrite !app_length. cbn [length bs app]. change (length (bs "!")) with 1%nat. change (length (bs " U+")) with 3%nat. change (length (bs " ")) with 1%nat. lia. }
  assert (NL : Forall (fun c => c <> 10) (entry_line u e)) by (eapply Forall_impl; [|exact A]; cbn; lia).
  assert (Last : hd 0 (rev (entry_line u e)) <> 13 /\ rev (entry_line u e) <> []).
  { assert (N : entry_line u e <> []) by (unfold entry_line; discriminate). destruct (exists_last N) as (p & y & E). rewrite E in A |- *. rewrite rev_app_distr. cbn [rev app hd].
    apply Forall_app in A as [_ A]. inversion A; subst. split; [lia|discriminate]. }
  destruct Hle as [<-|[<-|[]]].
  - change ([10] +++ r) with (10 :: r). rewrite lines_one by (exact NL || lia). rewrite app_nil_r. f_equal. unfold drop_cr. destruct Last as [L1 L2].
    rewrite <- (rev_involutive (entry_line u e)) at 2. destruct (rev (entry_line u e)) as [|c t]; [contradiction|]. cbn [hd] in L1. now rewrite (proj2 (Z.eqb_neq _ _) L1).
  - change ([13; 10] +++ r) with ([13] +++ 10 :: r). rewrite app_assoc. rewrite lines_one; [|apply Forall_app; split; [exact NL|repeat constructor; discriminate]|rewrite app_length; cbn [length]; lia].
    rewrite app_nil_r. f_equal. rewrite rev_app_distr. cbn [rev app drop_cr]. change (13 =? 13) with true. cbv iota. apply rev_involutive.
Qed.
Lemma lines_file u le es : In le line_ends -> Forall entry_ok es -> map_lines (map_file u le es) = map (entry_line u) es.
Proof.
  intros Hle F. induction F as [|e es H F IH]; [reflexivity|]. unfold map_file in *. cbn [map List.concat]. rewrite <- app_assoc. rewrite lines_entry by assumption. now rewrite IH.
Qed.

Lemma forall2_imp {A B} (P Q : A -> B -> Prop) l m : (forall a b, P a b -> Q a b) -> Forall2 P l m -> Forall2 Q l m.
Proof. intros H F. induction F; constructor; auto. Qed.
(** Every map file is accepted, whatever its line ends and the case of its digits, and its translator maps every text character by character as the map says *)
Theorem C93_map_files_partial :
  forall (upper : bool) (line_end : bytes) (es : list entry) (t : list Z),
    In line_end [[10]; [13; 10]] -> Forall entry_ok es -> Forall scalar t ->
    let f := translator_of (map_file upper line_end es) in
    snd f = false /\ Forall2 (mapped es) t (fst f (utf8 t)).
Proof.
  intros u le es t Hle F Ht f. unfold f, translator_of. rewrite lines_file by assumption.
  assert (P : forall e, In e es -> parse_line (entry_line u e) = Some (Some (code e, char e))).
  { intros e He. rewrite Forall_forall in F. destruct (F e He) as (H1 & H2 & H3 & _). now apply parse_entry. }
  destruct (C05_translator bytes parse_line (map (entry_line u) es) t) as [S1 S2].
  { apply Forall_forall. intros l Hl. apply in_map_iff in Hl as (e & <- & He). rewrite P by exact He. discriminate. }
  { exact Ht. }
  split; [exact S1|]. eapply forall2_imp; [|exact S2]. clear S1 S2 t Ht f. intros r b [H|[H|H]].
  - now left.
  - right. left. destruct H as (Hr & pre & l & post & c & El & (Hp & Hc) & Hb & Hno). split; [exact Hr|].
    apply map_eq_app in El as (a & q & -> & <- & El). destruct q as [|e q]; [discriminate El|]. cbn [map] in El. injection El as <- <-.
    assert (Ie : In e (a +++ e :: q)) by (apply in_or_app; right; now left). rewrite (P e Ie) in Hp. injection Hp as <- <-.
    exists a, e, q. split; [reflexivity|]. split; [split; [reflexivity|exact Hc]|]. split.
    + rewrite Hb. apply Z.mod_small. rewrite Forall_forall in F. destruct (F e Ie) as (X & _). exact X.
    + intros e' He' (L1 & L2). apply (Hno (entry_line u e') (code e')); [now apply in_map|]. split; [|exact L2]. rewrite P by (apply in_or_app; right; now right). now rewrite L1.
  - right. right. destruct H as (Hr & Hb & Hno). split; [exact Hr|]. split; [exact Hb|].
    intros e He (L1 & L2). apply (Hno (entry_line u e) (code e)); [now apply in_map|]. split; [|exact L2]. rewrite P by exact He. now rewrite L1.
Qed.
Print Assumptions C93_map_files_partial.
Definition es93 : list entry := [(128, 8364, bs "Euro"); (65, 65, bs "A"); (233, 233, bs "eacute"); (255, 8364, bs "Euro")].
Example C93_ex : Forall entry_ok es93 /\
  map_file false [13; 10] es93 = bs "!80 U+20ac Euro" +++ [13; 10] +++ bs "!41 U+0041 A" +++ [13; 10] +++ bs "!e9 U+00e9 eacute" +++ [13; 10] +++ bs "!ff U+20ac Euro" +++ [13; 10] /\
  fst (translator_of (map_file false [13; 10] es93)) (utf8 [65; 8364; 233; 1234]) = [65; 255; 233; 46].
Proof.
  split; [|split; vm_compute; reflexivity]. repeat constructor; cbn; try lia; try discriminate.
Qed.

(** ** Files and descriptors *)
(** An embedded map takes precedence over a file of the font directory; no name means cp1252; what cannot be opened is reported and translates
    nothing; after an error nothing is translated and the error stays *)
Theorem C93_descriptor_partial :
  forall (embedded file : bytes -> option bytes) (cp : bytes),
    let call := translator_from_descriptor embedded file in
    let name := match cp with [] => bs "cp1252" | _ => cp end in
    (forall s, snd (call true cp) = true /\ fst (call true cp) s = s) /\
    (embedded name = None -> file (name +++ bs ".map") = None -> snd (call false cp) = true /\ forall s, fst (call false cp) s = s) /\
    (forall upper line_end es t,
       (embedded name = Some (map_file upper line_end es) \/ embedded name = None /\ file (name +++ bs ".map") = Some (map_file upper line_end es)) ->
       In line_end [[10]; [13; 10]] -> Forall entry_ok es -> Forall scalar t ->
       snd (call false cp) = false /\ Forall2 (mapped es) t (fst (call false cp) (utf8 t))).
Proof.
  intros embedded file cp call name. split; [|split].
  - intros s. split; reflexivity.
  - intros H1 H2. unfold call, translator_from_descriptor. fold name. rewrite H1, H2. split; reflexivity.
  - intros u le es t H Hle F Ht. assert (E : call false cp = translator_of (map_file u le es)).
    { unfold call, translator_from_descriptor. fold name. destruct H as [->|[-> ->]]; reflexivity. }
    rewrite E. now apply C93_map_files_partial.
Qed.
Print Assumptions C93_descriptor_partial.
Example C93_descriptor_ex :
  let embedded := fun n => if beqb n (bs "cp1252") then Some (map_file true [10] es93) else None in
  let f := translator_from_descriptor embedded (fun _ => None) in
  fst (f false []) (utf8 [8364]) = [255] /\ snd (f false []) = false /\ fst (f false (bs "cp1250")) (utf8 [8364]) = utf8 [8364] /\ snd (f false (bs "cp1250")) = true.
Proof. vm_compute. repeat split; reflexivity. Qed.

(** The length of the lines matters: the entries after a line of 65536 bytes are ignored, without an error *)
Definition long_entries : list entry := [(128, 8364, repeat 97 (Z.to_nat 65536)); (255, 8364, bs "Euro")].
Theorem C93_long_line_refuted :
  (forall e, In e long_entries -> 0 <= code e < 256 /\ 0 <= char e < 65536 /\ name_ok e) /\
  snd (translator_of (map_file true [10] long_entries)) = false /\
  fst (translator_of (map_file true [10] long_entries)) (utf8 [8364]) = [46].
Proof.
  split; [|split; vm_compute; reflexivity].
  intros e [<-|[<-|[]]]; unfold name_ok, code, char; cbn [fst snd]; (split; [lia|]; split; [lia|]; split).
  - replace (Z.to_nat 65536) with (S (Z.to_nat 65535)) by lia. discriminate.
  - apply Forall_forall. intros c Hc. apply repeat_spec in Hc. lia.
  - discriminate.
  - apply Forall_forall. intros c Hc. cbn in Hc. lia.
Qed.
Print Assumptions C93_long_line_refuted.
