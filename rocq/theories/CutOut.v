(** The tables of the new font file. *)
From Verif Require Import Base DocModel DocSort TtfSpec TtfModel TtfProofs TtfProps TtfCmap CutSpec CutModel CutProofs CutRead CutGlyphs.
From Coq Require Import String Permutation.
Open Scope Z_scope.
Notation length := List.length.
Notation concat := List.concat.

(** ** the assembled file *)
Lemma assembled (tables : list (bytes * bytes)) (hd file : bytes) :
  NoDup (map fst tables) -> Forall (fun t : bytes * bytes => length (fst t) = 4%nat /\ Forall is_byte (snd t)) tables ->
  In (bs "head", hd) tables -> 12 <= len hd -> len tables < 4096 -> assemble tables = Ret file -> len file < 2 ^ 32 ->
  (forall name data, bs name <> bs "head" -> In (bs name, data) tables -> table_in file name data) /\
  exists adj, length adj = 4%nat /\ table_in file "head" (firstn 8 hd ++ adj ++ skipn 12 hd).
Proof.
  intros N F Ih Lh Ln A Lf. destruct (C50_table_directory tables hd N F Ih Lh Ln) as (file' & A' & R). rewrite A in A'. injection A' as <-.
  destruct (R Lf) as (_ & Hn & _ & Pm & Ord & Ent). clear R.
  assert (U : forall i j, 0 <= i < len tables -> 0 <= j < len tables -> tag file i = tag file j -> i = j).
  { intros i j Hi Hj E. destruct (Z.lt_trichotomy i j) as [H|[H|H]]; [|exact H|].
    - destruct (Ord i j ltac:(lia) ltac:(lia)) as [X _]. rewrite E, (st_irr bltb bltb_strict) in X. discriminate.
    - destruct (Ord j i ltac:(lia) ltac:(lia)) as [X _]. rewrite E, (st_irr bltb bltb_strict) in X. discriminate. }
  assert (G : forall name data, In (name, data) tables -> exists i, 0 <= i < len tables /\ tag file i = name /\ toff file i + tlen file i <= len file /\
     (name <> bs "head" -> tdata file i = data) /\ (name = bs "head" -> exists adj, length adj = 4%nat /\ tdata file i = firstn 8 data ++ adj ++ skipn 12 data)).
  { intros name data Hi. assert (X : In name (map (tag file) (indexes (length tables)))) by (eapply Permutation_in; [symmetry; exact Pm|]; apply in_map_iff; now exists (name, data)).
    apply in_map_iff in X as (i & Ti & Hx). unfold indexes in Hx. apply in_map_iff in Hx as (j & <- & Hj). apply in_seq in Hj.
    exists (Z.of_nat j). split; [lia|]. split; [exact Ti|]. destruct (Ent (Z.of_nat j) ltac:(lia)) as (d & Hd & _ & _ & _ & _ & B & D1 & D2). split; [exact B|].
    rewrite Ti in *. assert (d = data); [|now subst d].
    clear -N Hi Hd. induction tables as [|[a b] t IH]; [destruct Hi|]. cbn in N. inversion N as [|? ? X N']; subst.
    destruct Hi as [Hi|Hi], Hd as [Hd|Hd]; [congruence| | |auto]; exfalso; apply X.
    - replace a with name by congruence. apply in_map_iff. exists (name, d). auto.
    - replace a with name by congruence. apply in_map_iff. exists (name, data). auto. }
  split.
  - intros name data Hne Hi. destruct (G _ _ Hi) as (i & Hi0 & T & B & D & _). exists i. rewrite Hn. split; [exact Hi0|]. split; [exact T|]. split; [auto|]. split; [exact B|].
    intros j Hj Tj. apply U; congruence || lia.
  - destruct (G _ _ Ih) as (i & Hi0 & T & B & _ & D). destruct (D eq_refl) as (adj & La & D'). exists adj. split; [exact La|]. exists i. rewrite Hn. split; [exact Hi0|]. split; [exact T|]. split; [exact D'|]. split; [exact B|].
    intros j Hj Tj. apply U; congruence || lia.
Qed.
Lemma table_in_len file name data : table_in file name data -> len data <= len file.
Proof. intros (i & _ & _ & <- & _). unfold tdata, extract. rewrite firstn_length, skipn_length. lia. Qed.

(** ** copied tables *)
Lemma out_table_ret name t l : bs name <> bs "head" -> out_table name t = Ret l -> l = match t with Some b => [(bs name, b)] | None => [] end.
Proof.
  intros Hn. unfold out_table. destruct t as [b|]; [|congruence]. unfold clear_head. apply beqb_neq in Hn. rewrite Hn. cbn [obind]. congruence.
Qed.
Lemma copied_ret f dir names : forall copied, Forall is_byte f -> Forall (fun n => bs n <> bs "head" /\ length (bs n) = 4%nat) names -> NoDup (map bs names) ->
  omap (fun name => obind (table_data f dir name) (fun t => out_table name t)) names = Ret copied ->
  NoDup (map fst (concat copied)) /\ incl (map fst (concat copied)) (map bs names) /\
  Forall (fun t : bytes * bytes => length (fst t) = 4%nat /\ Forall is_byte (snd t)) (concat copied) /\ (length (concat copied) <= length names)%nat /\
  forall name b, In name names -> table_data f dir name = Ret (Some b) -> In (bs name, b) (concat copied).
Proof.
  induction names as [|n names IH]; intros copied Hf Hn N H; cbn [omap] in H.
  - injection H as <-. cbn. split; [constructor|]. split; [intros x []|]. split; [constructor|]. split; [lia|]. intros name b [].
  - obr H. obr H. injection H as <-. obr E. inversion Hn as [|? ? [Hh H4] Hn']; subst. inversion N as [|? ? N1 N2]; subst.
    apply out_table_ret in E; [|exact Hh]. destruct (IH v0 Hf Hn' N2 E0) as (A1 & A2 & A3 & A4 & A5). cbn [concat map]. subst v. destruct v1 as [b|]; cbn [app map fst length].
    + split; [constructor; [intros X; apply A2 in X; contradiction|exact A1]|]. split; [intros x [<-|Hx]; [now left|right; now apply A2]|].
      split; [constructor; [split; [exact H4|]|exact A3]|]. { cbn [snd]. eapply table_data_bytes; eauto. }
      split; [lia|]. intros name b' [<-|Hi] X; [rewrite E1 in X; injection X as <-; now left|right; auto].
    + split; [exact A1|]. split; [intros x Hx; right; now apply A2|]. split; [exact A3|]. split; [lia|].
      intros name b' [<-|Hi] X; [congruence|auto].
Qed.

(** ** tables of words *)
Lemma pack16_bytes n : Forall is_byte (pack16 n).
Proof. unfold pack16, is_byte. pose proof (Z.mod_pos_bound (n / 256) 256 ltac:(lia)). pose proof (Z.mod_pos_bound n 256 ltac:(lia)). repeat constructor; lia. Qed.
Lemma pack32_bytes n : Forall is_byte (pack32 n).
Proof. rewrite pack32_pack16. apply Forall_app. split; apply pack16_bytes. Qed.
Lemma flat_map_bytes {A} (g : A -> bytes) l : (forall a, Forall is_byte (g a)) -> Forall is_byte (flat_map g l).
Proof. intros H. induction l as [|a l IH]; [constructor|]. cbn. apply Forall_app. auto. Qed.
Lemma concat_bytes l : Forall (fun b : bytes => Forall is_byte b) l -> Forall is_byte (concat l).
Proof. induction 1; cbn; [constructor|]. apply Forall_app. auto. Qed.
(** words of [w] bytes, one after the other *)
Lemma concat_words (ws : list bytes) w i d rest : Forall (fun b : bytes => len b = w) ws -> nth_error ws i = Some d ->
  exists a b, concat ws ++ rest = a ++ d ++ b /\ len a = w * Z.of_nat i.
Proof.
  intros F H. exists (concat (firstn i ws)), (concat (skipn (S i) ws) ++ rest). split; [rewrite (concat_split ws i d H) at 1; now rewrite <- !app_assoc|].
  assert (L : (i < length ws)%nat) by (apply nth_error_Some; congruence). clear H d.
  revert i L. induction F as [|x ws Hx F IH]; intros [|i] L; cbn [firstn concat length] in *; try lia. rewrite app_length. specialize (IH i ltac:(lia)). lia.
Qed.
Lemma concat_u16 (ws : list bytes) w i d k : Forall (fun b : bytes => len b = w) ws -> nth_error ws i = Some d -> 0 <= k -> k + 2 <= w -> u16 (concat ws) (w * Z.of_nat i + k) = u16 d k.
Proof.
  intros F H Hk Hw. destruct (concat_words ws w i d [] F H) as (a & b & E & L). rewrite app_nil_r in E. rewrite E, <- L, u16_app by exact Hk.
  assert (Ld : len d = w) by (rewrite Forall_forall in F; apply F; eapply nth_error_In, H).
  unfold u16, byte_at. rewrite !app_nth1 by lia. reflexivity.
Qed.
Lemma flat_map_concat_ {A B} (g : A -> list B) l : flat_map g l = concat (map g l).
Proof. apply flat_map_concat_map. Qed.
Lemma words32_at ws i w : nth_error ws i = Some w -> 0 <= w < 2 ^ 32 -> u32 (flat_map pack32 ws) (4 * Z.of_nat i) = w.
Proof.
  intros H Hw. rewrite flat_map_concat_. assert (F : Forall (fun b : bytes => len b = 4) (map pack32 ws)) by (apply Forall_map, Forall_forall; intros; reflexivity).
  assert (H' : nth_error (map pack32 ws) i = Some (pack32 w)) by now apply map_nth_error.
  unfold u32. rewrite <- (Z.add_0_r (4 * Z.of_nat i)) at 1. rewrite !(concat_u16 _ 4 i (pack32 w)) by (assumption || lia).
  pose proof (u32_pack32 w [] Hw) as X. rewrite app_nil_r in X. exact X.
Qed.
Lemma words16_at ws i w : nth_error ws i = Some w -> 0 <= w < 65536 -> u16 (flat_map pack16 ws) (2 * Z.of_nat i) = w.
Proof. intros H Hw. rewrite (word_at _ _ _ H). now apply Z.mod_small. Qed.

(** reading the new table loca: all offsets multiples of 4, [pos] the last *)
Lemma cut_loca_at offsets pos format loca i o : cut_loca offsets pos = (format, loca) -> nth_error offsets i = Some o -> 0 <= o <= pos -> o mod 4 = 0 -> pos < 2 ^ 32 ->
  (format = 0 \/ format = 1) /\ Forall is_byte loca /\ (if format =? 0 then 2 * u16 loca (2 * Z.of_nat i) else u32 loca (4 * Z.of_nat i)) = o.
Proof.
  intros C H Ho Hm Hp. unfold cut_loca in C. destruct (65535 <? (pos + 1) / 2) eqn:E; injection C as <- <-.
  - split; [now right|]. split; [apply flat_map_bytes; intros; apply pack32_bytes|]. cbn [Z.eqb]. apply words32_at; [exact H|lia].
  - split; [now left|]. split; [apply flat_map_bytes; intros; apply pack16_bytes|]. cbn [Z.eqb].
    rewrite flat_map_concat_map, <- (map_map (fun o => o / 2) pack16), <- flat_map_concat_map. rewrite (words16_at _ i (o / 2)).
    + pose proof (Z.div_mod o 4 ltac:(lia)). rewrite Hm in H0. replace o with (2 * (2 * (o / 4))) at 1 by lia. rewrite (Z.mul_comm 2 (2 * (o / 4))), Z.div_mul by lia. lia.
    + exact (map_nth_error (fun o => o / 2) _ _ H).
    + split; [apply Z.div_pos; lia|]. assert (o / 2 <= (pos + 1) / 2) by (apply Z.div_le_mono; lia). lia.
Qed.

(** ** changed tables *)
Lemma patch_ret t o v r : patch (Some t) o v = Ret r -> exists b, r = Some b /\ 0 <= o /\ o + 2 <= len t /\ len b = len t /\ u16 b o = v mod 65536 /\
  (forall q, 0 <= q -> q < o \/ o + 2 <= q -> byte_at b q = byte_at t q) /\ (Forall is_byte t -> Forall is_byte b).
Proof.
  unfold patch. intros H. obr H. injection H as <-. exists v0. split; [reflexivity|]. pose proof (insert_bytes t o v v0) as B. pose proof (insert_ret _ _ _ _ E) as (H1 & H2 & H3 & H4 & H5). auto 10.
Qed.
Lemma patch_none o v : 0 <= o -> patch None o v = Panic.
Proof.
  intros Ho. unfold patch, insert_u16, splice, slice. cbn [length pack16]. destruct (_ && _ && _) eqn:E1; [|reflexivity]. destruct ((0 <=? o + _) && _ && _) eqn:E2; [|reflexivity]. cbn in *. lia.
Qed.
