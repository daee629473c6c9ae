(** Reading with the model's reader is reading as in the specification; renumbering of components. *)
From Verif Require Import Base DocModel TtfSpec TtfModel TtfProofs CutSpec CutModel.
From Coq Require Import String Permutation.
Open Scope Z_scope.
Notation length := List.length.

Lemma obind_ret {A B} (o : outcome A) (k : A -> outcome B) b : obind o k = Ret b -> exists a, o = Ret a /\ k a = Ret b.
Proof. destruct o as [a| |]; cbn; [eauto|discriminate|discriminate]. Qed.
Ltac obr H := let a := fresh "v" in let E := fresh "E" in apply obind_ret in H as (a & E & H).

Lemma extract_len s p n : 0 <= p -> 0 <= n -> p + n <= len s -> len (extract s p n) = n.
Proof. intros Hp Hn H. unfold extract. rewrite firstn_length_le; [lia|]. rewrite skipn_length. lia. Qed.
Lemma nth_skipn_ {A} (l : list A) a b d : nth b (skipn a l) d = nth (a + b) l d.
Proof. revert l. induction a as [|a IH]; intros [|x l]; cbn; auto. now destruct b. Qed.
Lemma nth_firstn_ {A} (l : list A) n i d : (i < n)%nat -> nth i (firstn n l) d = nth i l d.
Proof. revert l i. induction n as [|n IH]; intros [|x l] [|i] H; cbn; try lia; auto. apply IH. lia. Qed.
Lemma byte_extract s p n q : 0 <= p -> 0 <= q < n -> byte_at (extract s p n) q = byte_at s (p + q).
Proof. intros Hp Hq. unfold byte_at, extract. rewrite nth_firstn_ by lia. rewrite nth_skipn_. f_equal. lia. Qed.
Lemma u16_extract s p n q : 0 <= p -> 0 <= q -> q + 2 <= n -> u16 (extract s p n) q = u16 s (p + q).
Proof. intros Hp Hq Hn. unfold u16. rewrite !byte_extract by lia. now rewrite <- Z.add_assoc. Qed.
Lemma u32_extract s p n q : 0 <= p -> 0 <= q -> q + 4 <= n -> u32 (extract s p n) q = u32 s (p + q).
Proof. intros Hp Hq Hn. unfold u32. rewrite !u16_extract by lia. now rewrite <- Z.add_assoc. Qed.
Lemma extract_extract s p n q m : 0 <= p -> 0 <= q -> 0 <= m -> q + m <= n -> extract (extract s p n) q m = extract s (p + q) m.
Proof.
  intros Hp Hq Hm H. unfold extract. rewrite skipn_firstn_comm, firstn_firstn, skipn_skipn'. 
  replace (Z.to_nat p + Z.to_nat q)%nat with (Z.to_nat (p + q)) by lia. f_equal. lia.
Qed.
Lemma list_ext_byte (a b : bytes) : len a = len b -> (forall q, 0 <= q < len a -> byte_at a q = byte_at b q) -> a = b.
Proof.
  intros HL H. apply (nth_ext a b 0 0); [lia|]. intros n Hn. specialize (H (Z.of_nat n)). unfold byte_at in H. rewrite Nat2Z.id in H. apply H. lia.
Qed.
Lemma extract_ext a b p n : 0 <= p -> 0 <= n -> p + n <= len a -> p + n <= len b -> (forall q, p <= q < p + n -> byte_at a q = byte_at b q) -> extract a p n = extract b p n.
Proof.
  intros Hp Hn Ha Hb H. apply list_ext_byte; rewrite !extract_len by lia; [reflexivity|]. intros q Hq. rewrite !byte_extract by lia. apply H. lia.
Qed.

(** ** the reader *)
Lemma rd_ret f p n b : rd f p n = Ret b -> 0 <= p /\ 0 <= n /\ p + n <= len f /\ b = extract f p n.
Proof.
  unfold rd, slice. destruct ((0 <=? p) && (p <=? p + n) && (p + n <=? len f)) eqn:E; [|discriminate].
  apply andb_prop in E as [E E3]. apply andb_prop in E as [E1 E2]. intros H. injection H as <-.
  split; [lia|]. split; [lia|]. split; [lia|]. unfold extract. do 2 f_equal. lia.
Qed.
Lemma rd_ok f p n : 0 <= p -> 0 <= n -> p + n <= len f -> rd f p n = Ret (extract f p n).
Proof.
  intros H1 H2 H3. unfold rd, slice. replace ((0 <=? p) && (p <=? p + n) && (p + n <=? len f)) with true by lia.
  unfold extract. do 3 f_equal. lia.
Qed.
Lemma rd16_ret f p v : rd16 f p = Ret v -> 0 <= p /\ p + 2 <= len f /\ v = u16 f p.
Proof.
  unfold rd16. intros H. obr H. apply rd_ret in E as (H1 & _ & H3 & ->). injection H as <-. split; [lia|]. split; [lia|].
  pose proof (byte_extract f p 2 0 H1 ltac:(lia)) as B0. pose proof (byte_extract f p 2 1 H1 ltac:(lia)) as B1.
  unfold u16, byte_at in *. change (Z.to_nat 0) with 0%nat in B0. change (Z.to_nat 1) with 1%nat in B1. rewrite Z.add_0_r in B0. now rewrite B0, B1.
Qed.
Lemma rd16_ok f p : 0 <= p -> p + 2 <= len f -> rd16 f p = Ret (u16 f p).
Proof.
  intros H1 H2. unfold rd16. rewrite rd_ok by lia. cbn [obind]. f_equal.
  pose proof (byte_extract f p 2 0 H1 ltac:(lia)) as B0. pose proof (byte_extract f p 2 1 H1 ltac:(lia)) as B1.
  unfold u16, byte_at in *. change (Z.to_nat 0) with 0%nat in B0. change (Z.to_nat 1) with 1%nat in B1. rewrite Z.add_0_r in B0. now rewrite B0, B1.
Qed.
Lemma rd32_ret f p v : rd32 f p = Ret v -> 0 <= p /\ p + 4 <= len f /\ v = u32 f p.
Proof.
  unfold rd32. intros H. obr H. apply rd_ret in E as (H1 & _ & H3 & ->). injection H as <-. split; [lia|]. split; [lia|].
  pose proof (byte_extract f p 4 0 H1 ltac:(lia)) as B0. pose proof (byte_extract f p 4 1 H1 ltac:(lia)) as B1.
  pose proof (byte_extract f p 4 2 H1 ltac:(lia)) as B2. pose proof (byte_extract f p 4 3 H1 ltac:(lia)) as B3.
  unfold u32, u16, byte_at in *. change (Z.to_nat 0) with 0%nat in B0. change (Z.to_nat 1) with 1%nat in B1. change (Z.to_nat 2) with 2%nat in B2. change (Z.to_nat 3) with 3%nat in B3.
  rewrite Z.add_0_r in B0. rewrite B0, B1, B2, B3. replace (p + 2 + 1) with (p + 3) by lia. lia.
Qed.
Lemma bytes_at f p : Forall is_byte f -> 0 <= byte_at f p < 256.
Proof.
  intros H. unfold byte_at. destruct (nth_in_or_default (Z.to_nat p) f 0) as [Hin| ->]; [|lia]. rewrite Forall_forall in H. specialize (H _ Hin). unfold is_byte in H. lia.
Qed.
Lemma u16_range f p : Forall is_byte f -> 0 <= u16 f p < 65536.
Proof. intros H. unfold u16. pose proof (bytes_at f p H). pose proof (bytes_at f (p + 1) H). lia. Qed.
Lemma rdi16_ret f p v : Forall is_byte f -> rdi16 f p = Ret v -> 0 <= p /\ p + 2 <= len f /\ v = (if u16 f p <? 32768 then u16 f p else u16 f p - 65536).
Proof. intros Hb. unfold rdi16. intros H. obr H. apply rd16_ret in E as (H1 & H2 & ->). injection H as <-. auto. Qed.
Lemma extract_bytes f p n : Forall is_byte f -> Forall is_byte (extract f p n).
Proof.
  intros H. unfold extract. apply Forall_forall. intros x Hx. rewrite Forall_forall in H. apply H.
  rewrite <- (firstn_skipn (Z.to_nat p) f). apply in_or_app. right. rewrite <- (firstn_skipn (Z.to_nat n) (skipn _ f)). apply in_or_app. now left.
Qed.

Lemma omap_ret {A B} (g : A -> outcome B) l r : omap g l = Ret r -> Forall2 (fun a b => g a = Ret b) l r.
Proof.
  revert r. induction l as [|a l IH]; intros r H; cbn [omap] in H.
  - injection H as <-. constructor.
  - obr H. obr H. injection H as <-. constructor; auto.
Qed.
Lemma Forall2_nth {A B} (P : A -> B -> Prop) l r : Forall2 P l r -> forall i a, nth_error l i = Some a -> exists b, nth_error r i = Some b /\ P a b.
Proof. induction 1 as [|a b l r H F IH]; intros [|i] x Hx; cbn in *; try discriminate; [injection Hx as <-; eauto|auto]. Qed.
Lemma Forall2_nth' {A B} (P : A -> B -> Prop) l r : Forall2 P l r -> forall i b, nth_error r i = Some b -> exists a, nth_error l i = Some a /\ P a b.
Proof. induction 1 as [|a b l r H F IH]; intros [|i] x Hx; cbn in *; try discriminate; [injection Hx as <-; eauto|auto]. Qed.
Lemma range_nth a n i : (i < n)%nat -> nth_error (range a n) i = Some (a + Z.of_nat i).
Proof.
  intros H. unfold range. apply (map_nth_error (fun i => a + Z.of_nat i)). rewrite (nth_error_nth' _ 0%nat) by (rewrite seq_length; lia).
  now rewrite seq_nth by lia.
Qed.
Lemma range_len a n : length (range a n) = n.
Proof. unfold range. now rewrite map_length, seq_length. Qed.
Lemma in_range a n x : In x (range a n) <-> a <= x < a + Z.of_nat n.
Proof.
  unfold range. rewrite in_map_iff. split.
  - intros (i & <- & Hi). apply in_seq in Hi. lia.
  - intros H. exists (Z.to_nat (x - a)). split; [lia|]. apply in_seq. lia.
Qed.

(** ** flags *)
Lemma flag_bit flags k : 0 <= k -> flag flags (2 ^ k) = Z.testbit flags k.
Proof.
  intros Hk. unfold flag. destruct (Z.testbit flags k) eqn:T.
  - apply negb_true_iff, Z.eqb_neq. intros H. assert (X : Z.testbit (Z.land flags (2 ^ k)) k = true).
    { rewrite Z.land_spec, T, Z.pow2_bits_true by lia. reflexivity. }
    rewrite H, Z.bits_0 in X. discriminate.
  - apply negb_false_iff, Z.eqb_eq. apply Z.bits_inj'. intros n Hn. rewrite Z.land_spec, Z.bits_0.
    destruct (Z.eq_dec n k) as [->|Hne]; [now rewrite T|]. rewrite Z.pow2_bits_false by lia. apply andb_false_r.
Qed.
Lemma after_component_size flags : 4 + after_component flags = component_size flags.
Proof.
  unfold after_component, component_size. change 1 with (2 ^ 0) at 1. change 8 with (2 ^ 3) at 1. change 64 with (2 ^ 6). change 128 with (2 ^ 7).
  rewrite !flag_bit by lia. lia.
Qed.
Lemma flag32 flags : flag flags 32 = Z.testbit flags 5.
Proof. change 32 with (2 ^ 5). apply flag_bit. lia. Qed.
Lemma component_size_pos flags : 6 <= component_size flags.
Proof. unfold component_size. destruct (Z.testbit flags 0), (Z.testbit flags 3), (Z.testbit flags 6), (Z.testbit flags 7); lia. Qed.

(** ** renumbering *)
Lemma splice_ret s o v r : splice s o v = Ret r -> 0 <= o /\ o + len v <= len s /\ r = firstn (Z.to_nat o) s ++ v ++ skipn (Z.to_nat o + length v) s.
Proof.
  unfold splice, slice. destruct ((0 <=? 0) && (0 <=? o) && (o <=? len s)) eqn:E1; [|discriminate].
  destruct ((0 <=? o + len v) && (o + len v <=? len s) && (len s <=? len s)) eqn:E2; [|discriminate].
  intros H. injection H as <-. split; [lia|]. split; [lia|]. rewrite Z.sub_0_r. cbn [skipn Z.to_nat]. f_equal. f_equal.
  replace (Z.to_nat (o + len v)) with (Z.to_nat o + length v)%nat by lia. apply firstn_all2. rewrite skipn_length. lia.
Qed.
Lemma splice_byte s o v r : splice s o v = Ret r -> len r = len s /\
  (forall q, 0 <= q -> q < o \/ o + len v <= q -> byte_at r q = byte_at s q) /\ (forall q, 0 <= q < len v -> byte_at r (o + q) = byte_at v q).
Proof.
  intros H. apply splice_ret in H as (Ho & Hl & ->). split; [rewrite !app_length, firstn_length_le, skipn_length by lia; lia|].
  unfold byte_at. split.
  - intros q Hq [H|H].
    + rewrite app_nth1 by (rewrite firstn_length_le; lia). apply nth_firstn_. lia.
    + rewrite app_nth2 by (rewrite firstn_length_le; lia). rewrite app_nth2 by (rewrite firstn_length_le; lia). rewrite nth_skipn_, firstn_length_le by lia. f_equal. lia.
  - intros q Hq. rewrite app_nth2 by (rewrite firstn_length_le; lia). rewrite app_nth1 by (rewrite firstn_length_le; lia). rewrite firstn_length_le by lia. f_equal. lia.
Qed.
Lemma insert_ret s o v r : insert_u16 s o v = Ret r -> 0 <= o /\ o + 2 <= len s /\ len r = len s /\
  (forall q, 0 <= q -> q < o \/ o + 2 <= q -> byte_at r q = byte_at s q) /\ u16 r o = v mod 65536.
Proof.
  unfold insert_u16. intros H. pose proof (splice_ret _ _ _ _ H) as (H1 & H2 & _). apply splice_byte in H as (L & H3 & H4).
  change (len (pack16 v)) with 2 in *. repeat (split; [auto; lia|]).
  unfold u16. rewrite <- (Z.add_0_r o) at 1. rewrite !H4 by lia. change (byte_at (pack16 v) 0 * 256 + byte_at (pack16 v) 1 = v mod 65536).
  pose proof (pack16_u16 v []) as P. rewrite app_nil_r in P. exact P.
Qed.
Lemma insert_bytes s o v r : Forall is_byte s -> insert_u16 s o v = Ret r -> Forall is_byte r.
Proof.
  intros Hs H. apply splice_ret in H as (_ & _ & ->). rewrite <- (firstn_skipn (Z.to_nat o) s) in Hs. apply Forall_app in Hs as [H1 H2].
  apply Forall_app. split; [exact H1|]. apply Forall_app. split.
  - unfold pack16, is_byte. pose proof (Z.mod_pos_bound (v / 256) 256 ltac:(lia)). pose proof (Z.mod_pos_bound v 256 ltac:(lia)). repeat constructor; lia.
  - rewrite <- skipn_skipn'. rewrite <- (firstn_skipn (length (pack16 v)) (skipn (Z.to_nat o) s)) in H2. now apply Forall_app in H2.
Qed.
Lemma u16_same a b p : 0 <= p -> byte_at a p = byte_at b p -> byte_at a (p + 1) = byte_at b (p + 1) -> u16 a p = u16 b p.
Proof. intros _ H1 H2. unfold u16. now rewrite H1, H2. Qed.

Lemma components_agree a b p l : components a p l -> len a = len b -> 0 <= p -> (forall q, p <= q -> byte_at a q = byte_at b q) -> components b p l.
Proof.
  induction 1 as [p H1 H2|p l H1 H2 H IH]; intros L Hp HA.
  - constructor; [lia|]. now rewrite <- (u16_same a b p Hp (HA p ltac:(lia)) (HA (p + 1) ltac:(lia))).
  - pose proof (u16_same a b p Hp (HA p ltac:(lia)) (HA (p + 1) ltac:(lia))) as U. pose proof (component_size_pos (u16 a p)). constructor; [lia|now rewrite <- U|].
    rewrite <- U. apply IH; [exact L|lia|]. intros q Hq. apply HA. lia.
Qed.
Lemma components_ge data p l : components data p l -> forall q, In q l -> p + 2 <= q /\ q + 2 <= len data.
Proof.
  induction 1 as [p H1 H2|p l H1 H2 H IH]; intros q Hq.
  - destruct Hq as [<-|[]]. lia.
  - destruct Hq as [<-|Hq]; [lia|]. apply IH in Hq. pose proof (component_size_pos (u16 data p)). lia.
Qed.
Lemma components_det data p l : components data p l -> forall l', components data p l' -> l = l'.
Proof. induction 1 as [p H1 H2|p l H1 H2 H IH]; intros l' H'; inversion H'; subst; try congruence. f_equal. auto. Qed.

Definition new_number (set : list (Z * Z)) (g : Z) : Z := match index_of set g with Some i => i | None => 0 end.
Lemma renumber_ret set fuel : forall data p r, 0 <= p -> renumber fuel set data p = Ret r ->
  len r = len data /\ exists fields, components data p fields /\
    (forall q, In q fields -> u16 r q = new_number set (u16 data q) mod 65536) /\
    (forall q, 0 <= q -> (forall x, In x fields -> q <> x /\ q <> x + 1) -> byte_at r q = byte_at data q).
Proof.
  induction fuel as [|fuel IH]; intros data p r Hp H; cbn [renumber] in H; [discriminate|].
  obr H. apply rd16_ret in E as (_ & E1 & ->). obr H. apply rd16_ret in E as (_ & E2 & ->). obr H. fold (new_number set (u16 data (p + 2))) in E.
  apply insert_ret in E as (_ & _ & L & Hb & Hu). rewrite flag32 in H. rewrite <- Z.add_assoc, after_component_size in H.
  pose proof (component_size_pos (u16 data p)) as Hc.
  destruct (Z.testbit (u16 data p) 5) eqn:T.
  - assert (P0 : 0 <= p + component_size (u16 data p)) by lia. destruct (IH _ _ _ P0 H) as (L' & fields & C & Hf & Hr). split; [lia|]. exists (p + 2 :: fields).
    assert (C' : components data (p + component_size (u16 data p)) fields).
    { eapply components_agree; [exact C|exact L|lia|]. intros q Hq. apply Hb; lia. }
    split; [constructor; [lia|exact T|exact C']|]. pose proof (components_ge _ _ _ C') as G. split.
    + intros q [<-|Hq].
      * assert (X : u16 r (p + 2) = u16 v (p + 2)).
        { apply u16_same; [lia| |]; apply Hr; try lia; intros x Hx; apply G in Hx; lia. }
        rewrite X. exact Hu.
      * rewrite (Hf q Hq). f_equal. f_equal. apply G in Hq. apply u16_same; [lia| |]; apply Hb; lia.
    + intros q Hq Hx. rewrite Hr; [|exact Hq|intros x Hi; apply Hx; now right]. apply Hb; [exact Hq|]. specialize (Hx _ (or_introl eq_refl)). lia.
  - injection H as <-. split; [exact L|]. exists [p + 2]. split; [constructor; [lia|exact T]|]. split.
    + intros q [<-|[]]. exact Hu.
    + intros q Hq Hx. apply Hb; [exact Hq|]. specialize (Hx _ (or_introl eq_refl)). lia.
Qed.
