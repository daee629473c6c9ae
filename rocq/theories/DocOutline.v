(** The loop of putbookmarks builds the outline tree. *)
From Verif Require Import Base TextModel Crypto DocModel DocProofs OutlineSpec.
From Coq Require Import String.
Open Scope Z_scope.
Notation length := List.length.
Local Notation "a +++ b" := (List.app a b) (at level 60, right associativity, only parsing).

Section Tree.
  Variable ls : list Z.
  Hypothesis WN : well_nested ls.
  Local Notation n := (count_items ls).
  Local Notation L := (lv ls).

  Lemma lv_nonneg i : item ls i -> 0 <= L i.
  Proof.
    intros [H0 H1]. destruct WN as [W0 W1]. destruct (Z.eq_dec i 0) as [->|Hi].
    - rewrite W0; [lia|]. intros ->. unfold count_items in H1. cbn in H1. lia.
    - replace i with (i - 1 + 1) by lia. apply W1; unfold item; lia.
  Qed.
  Lemma lv_step i : 0 < i < n -> L i <= L (i - 1) + 1.
  Proof. intros H. destruct WN as [_ W1]. specialize (W1 (i - 1)). replace (i - 1 + 1) with i in W1 by lia. apply W1; unfold item; lia. Qed.

  (** between an item of level <= v and a later item of level > v there is one of level v + 1 right after going above *)
  Lemma ivt v : forall m j, (0 <= j) -> j + Z.of_nat m < n -> L j <= v -> v < L (j + Z.of_nat m) ->
    exists k, j < k <= j + Z.of_nat m /\ L k = v + 1.
  Proof.
    induction m as [|m IH]; intros j Hj Hn H1 H2; [rewrite Z.add_0_r in H2; lia|].
    destruct (Z_lt_le_dec v (L (j + Z.of_nat m))) as [H|H].
    - destruct (IH j Hj) as (k & Hk & Ek); auto; [lia|]. exists k. split; [lia|exact Ek].
    - exists (j + Z.of_nat (S m)). split; [lia|]. pose proof (lv_step (j + Z.of_nat (S m))) as X.
      replace (j + Z.of_nat (S m) - 1) with (j + Z.of_nat m) in X by lia. lia.
  Qed.
  Lemma ivt' v j i : 0 <= j <= i -> i < n -> L j <= v -> v < L i -> exists k, j < k <= i /\ L k = v + 1.
  Proof. intros H1 H2 H3 H4. destruct (ivt v (Z.to_nat (i - j)) j) as (k & Hk & Ek); replace (j + Z.of_nat (Z.to_nat (i - j))) with i in * by lia; try lia. eauto. Qed.

  Lemma parent_unique i p q : is_parent ls i p -> is_parent ls i q -> p = q.
  Proof.
    intros (_ & [(A & ->)|(A & B & C & D)]) (_ & [(A' & ->)|(A' & B' & C' & D')]); try lia; try contradiction.
    destruct (Z.lt_trichotomy p q) as [X|[X|X]]; [|exact X|].
    - specialize (D q). lia.
    - specialize (D' p). lia.
  Qed.
  Lemma siblings_level i j : siblings ls i j -> L i = L j.
  Proof.
    intros (p & (I1 & H1) & (I2 & H2)). destruct H1 as [(A & ->)|(A & B & C & D)], H2 as [(A' & E)|(A' & B' & C' & D')]; unfold item in *; lia.
  Qed.
  (** same level with only deeper items between: the previous sibling *)
  Lemma prev_char i j : item ls i -> 0 <= j < i -> L j = L i -> (forall k, j < k < i -> L i < L k) -> is_prev ls i j.
  Proof.
    intros I Hj Hl Hb. split; [lia|]. split.
    - assert (Ij : item ls j) by (unfold item in *; lia). pose proof (lv_nonneg i I).
      destruct (Z.eq_dec (L i) 0) as [H0|H0].
      + exists n. split; split; auto; left; split; lia.
      + assert (X : exists p, is_parent ls j p).
        { assert (G : forall m, (Z.of_nat m <= j) -> (forall k, j - Z.of_nat m <= k < j -> L k <> L j - 1) ->
                       exists p, 0 <= p < j /\ L p = L j - 1 /\ forall k, p < k < j -> L k <> L j - 1).
          { intros m. remember (Z.to_nat (j - Z.of_nat m)) as f eqn:Ef. revert m Ef. induction f as [|f IHf]; intros m Ef Hm Hk.
            - exfalso. assert (j = Z.of_nat m) by lia.
              destruct WN as [W0 _]. assert (L0 : L 0 = 0). { apply W0. intros E0. destruct I. unfold count_items in *. rewrite E0 in *. cbn in *. lia. }
              destruct (Z.eq_dec j 0) as [->|Hj0]; [lia|].
              destruct (Z.eq_dec (L j - 1) 0) as [E1|E1]; [apply (Hk 0); lia|].
              unfold item in *. destruct (ivt' (L j - 2) 0 (j - 1)) as (q & Hq & Eq); try lia.
              { pose proof (lv_step j). assert (L (j - 1) <> L j - 1) by (apply Hk; lia). lia. }
              apply (Hk q); lia.
            - destruct (Z.eq_dec (L (j - Z.of_nat m - 1)) (L j - 1)) as [E1|E1].
              + exists (j - Z.of_nat m - 1). split; [lia|]. split; [exact E1|]. intros k Hk'. apply Hk. lia.
              + apply (IHf (S m)); [lia|lia|]. intros k Hk'. destruct (Z.eq_dec k (j - Z.of_nat m - 1)) as [->|]; [exact E1|apply Hk; lia]. }
          destruct (G 0%nat) as (p & P1 & P2 & P3); [lia|intros; lia|]. exists p. split; [exact Ij|]. right. split; [lia|auto]. }
        destruct X as (p & Hp). exists p. split; [|exact Hp]. destruct Hp as (_ & [(A & _)|(A & B & C & D)]); [lia|].
        split; [exact I|]. right. split; [exact H0|]. split; [lia|]. split; [lia|]. intros k Hk.
        destruct (Z.lt_trichotomy k j) as [X|[->|X]]; [rewrite <- Hl; apply D; lia|lia|]. specialize (Hb k). lia.
    - intros k Hk Hs. apply siblings_level in Hs. specialize (Hb k Hk). lia.
  Qed.
  (** going one level down from the item just before: no previous sibling *)
  Lemma no_prev i : item ls i -> (i = 0 \/ L (i - 1) < L i) -> forall j, ~ is_prev ls i j.
  Proof.
    intros I Hi j (Hj & (p & Hp & Hq) & _). destruct Hi as [->|Hi].
    - destruct Hq as ((? & ?) & _). lia.
    - pose proof Hq as (Ij & _). unfold item in *.
      assert (p = i - 1 /\ p <> n) as [-> Hn].
      { destruct Hp as (_ & [(A & ->)|(A & B & C & D)]).
        - assert (0 <= L (i - 1)) by (apply lv_nonneg; unfold item; lia). lia.
        - split; [|lia]. destruct (Z.eq_dec p (i - 1)) as [|Hne]; [assumption|]. exfalso.
          apply (D (i - 1)); [lia|]. pose proof (lv_step i). lia. }
      destruct Hq as (_ & [(A & E)|(A & B & C & D)]); lia.
  Qed.
  Lemma prev_sym i j : is_prev ls i j -> item ls i /\ item ls j.
  Proof. intros (_ & (p & (A & _) & (B & _)) & _). now split. Qed.

  (** the tree restricted to the items before m *)
  Record node_ok (m i : Z) (x : onode) : Prop := {
    nk_parent : is_parent ls i (on_parent x);
    nk_prev : link_to (is_prev ls i) (on_prev x);
    nk_next : link_to (fun j => j < m /\ is_prev ls j i) (on_next x);
    nk_first : link_to (fun c => c < m /\ is_parent ls c i /\ forall c', is_parent ls c' i -> c <= c') (on_first x);
    nk_last : link_to (fun c => c < m /\ is_parent ls c i /\ forall c', c' < m -> is_parent ls c' i -> c' <= c) (on_last x) }.

  Definition last_at (m v j : Z) : Prop := 0 <= j < m /\ L j = v /\ forall k, j < k < m -> L k <> v.
  Lemma last_at_exists m v : m <= n -> (exists j, 0 <= j < m /\ L j = v) -> exists j, last_at m v j.
  Proof.
    intros Hm (j & Hj & Ej).
    assert (G : forall f j, (Z.to_nat (m - j) <= f)%nat -> 0 <= j < m -> L j = v -> exists j', last_at m v j').
    { clear j Hj Ej. induction f as [|f IH]; intros j Hf Hj Ej; [lia|].
      assert (D : (exists k, j < k < m /\ L k = v) \/ (forall k, j < k < m -> L k <> v)).
      { clear - Hj. assert (X : forall g, (exists k, j < k < j + Z.of_nat g /\ L k = v) \/ (forall k, j < k < j + Z.of_nat g -> L k <> v)).
        { induction g as [|g [(k & Hk)|Hk]]; [right; lia|left; exists k; lia|].
          destruct (Z.eq_dec (L (j + Z.of_nat g)) v) as [Ev|Ev].
          - destruct g; [right; lia|]. left. exists (j + Z.of_nat (S g)). lia.
          - right. intros k Hk'. destruct (Z.eq_dec k (j + Z.of_nat g)) as [->|]; [exact Ev|apply Hk; lia]. }
        destruct (X (Z.to_nat (m - j))) as [(k & Hk)|Hk]; [left; exists k; lia|right]. intros k Hk'. apply Hk. lia. }
      destruct D as [(k & Hk & Ek)|D]; [apply (IH k); auto; lia|]. exists j. split; [exact Hj|]. now split. }
    eapply (G (Z.to_nat (m - j))); eauto.
  Qed.

  Record inv (m : Z) (lru : list (Z * Z)) (level : Z) (ns : list onode) : Prop := {
    iv_m : 0 <= m <= n;
    iv_len : Z.of_nat (length ns) = n;
    iv_lru : forall v j, last_at m v j -> lru_get v lru = j;
    iv_level : (m = 0 /\ level = 0) \/ (0 < m /\ level = L (m - 1));
    iv_old : forall i x, 0 <= i < m -> at_ ns i = Some x -> node_ok m i x;
    iv_new : forall i x, m <= i -> at_ ns i = Some x -> x = fresh_node }.

  Lemma at_upd j g l i : at_ (upd j g l) i = if i =? j then option_map g (at_ l i) else at_ l i.
  Proof.
    unfold upd. destruct (at_ l j) as [o|] eqn:Ej.
    - unfold at_ in *. destruct (j <? 0) eqn:E0; [discriminate|]. destruct (i =? j) eqn:Eij.
      + apply Z.eqb_eq in Eij. subst i. rewrite E0, Ej. cbn. apply nth_set_nth_same. apply nth_error_Some. congruence.
      + destruct (i <? 0) eqn:E1; [reflexivity|]. rewrite nth_set_nth_other; [reflexivity|]. lia.
    - destruct (i =? j) eqn:Eij; [|reflexivity]. apply Z.eqb_eq in Eij. subst. now rewrite Ej.
  Qed.
  Lemma upd_length j g l : length (upd j g l) = length l.
  Proof. unfold upd. destruct (at_ l j); [apply set_nth_length|reflexivity]. Qed.
  Lemma at_some {A} (l : list A) i : 0 <= i < Z.of_nat (length l) -> exists x, at_ l i = Some x.
  Proof.
    intros H. unfold at_. replace (i <? 0) with false by lia. destruct (nth_error l (Z.to_nat i)) eqn:E; [eauto|]. apply nth_error_None in E. lia.
  Qed.

  Lemma lru_step m lru v j : inv m lru v j -> 0 <= m < n -> forall v' j', last_at (m + 1) v' j' -> lru_get v' ((L m, m) :: lru) = j'.
  Proof.
    intros I Hm v' j' (Hj & Ej & Hk). cbn [lru_get]. destruct (v' =? L m) eqn:E.
    - apply Z.eqb_eq in E. destruct (Z.eq_dec j' m) as [|Hne]; [congruence|]. exfalso. apply (Hk m); lia.
    - apply Z.eqb_neq in E. apply (iv_lru _ _ _ _ I). split; [|split; [exact Ej|]].
      + destruct (Z.eq_dec j' m) as [->|]; [congruence|lia].
      + intros k Hk'. apply Hk. lia.
  Qed.

  (** what the step establishes about the new item's relatives *)
  Lemma step_parent m lru level ns : inv m lru level ns -> m < n -> 0 < L m -> is_parent ls m (lru_get (L m - 1) lru) /\ 0 <= lru_get (L m - 1) lru < m.
  Proof.
    intros I Hm Hl. pose proof (iv_m _ _ _ _ I) as Hm0.
    assert (X : exists j, 0 <= j < m /\ L j = L m - 1).
    { destruct (Z.eq_dec m 0) as [->|Hm1].
      - destruct WN as [W0 _]. rewrite W0 in Hl; [lia|]. intros ->. unfold count_items in Hm. cbn in Hm. lia.
      - pose proof (lv_step m). destruct (Z.eq_dec (L (m - 1)) (L m - 1)) as [E|E]; [exists (m - 1); split; [lia|exact E]|].
        destruct WN as [W0 _]. assert (L0 : L 0 = 0). { apply W0. intros E0. unfold count_items in *. rewrite E0 in *. cbn in *. lia. }
        destruct (Z.eq_dec (L m - 1) 0) as [E1|E1]; [exists 0; lia|].
        destruct (ivt' (L m - 2) 0 (m - 1)) as (k & Hk & Ek); try lia. exists k. lia. }
    destruct (last_at_exists m (L m - 1)) as (j & Hj); [lia|exact X|].
    rewrite (iv_lru _ _ _ _ I _ _ Hj). destruct Hj as (Hj & Ej & Hk). split; [|lia]. split; [split; lia|].
    right. split; [lia|]. split; [lia|]. split; [exact Ej|exact Hk].
  Qed.
  Lemma step_prev m lru level ns : inv m lru level ns -> 0 < m < n -> L m <= L (m - 1) -> is_prev ls m (lru_get (L m) lru) /\ 0 <= lru_get (L m) lru < m.
  Proof.
    intros I Hm Hl.
    assert (X : exists j, 0 <= j < m /\ L j = L m).
    { destruct (Z.eq_dec (L (m - 1)) (L m)) as [E|E]; [exists (m - 1); split; [lia|exact E]|].
      destruct WN as [W0 _]. assert (L0 : L 0 = 0). { apply W0. intros E0. unfold count_items in *. rewrite E0 in *. cbn in *. lia. }
      assert (0 <= L m) by (apply lv_nonneg; unfold item; lia).
      destruct (Z.eq_dec (L m) 0) as [E1|E1]; [exists 0; lia|].
      destruct (ivt' (L m - 1) 0 (m - 1)) as (k & Hk & Ek); try lia. exists k. lia. }
    destruct (last_at_exists m (L m)) as (j & Hj); [lia|exact X|].
    rewrite (iv_lru _ _ _ _ I _ _ Hj). destruct Hj as (Hj & Ej & Hk). split; [|lia].
    apply prev_char; [unfold item; lia|lia|lia|]. intros k Hk'.
    destruct (Z_lt_le_dec (L m) (L k)) as [H|H]; [exact H|exfalso].
    assert (L k <> L m) by (apply Hk; lia).
    destruct (Z.eq_dec (L (m - 1)) (L m)) as [E|E]; [apply (Hk (m - 1)); try lia; destruct (Z.eq_dec k (m - 1)); lia|].
    destruct (ivt' (L m - 1) k (m - 1)) as (q & Hq & Eq); try lia; try (apply (Hk q); lia).
  Qed.
  Lemma step_first m : 0 < m < n -> L (m - 1) < L m -> is_parent ls m (m - 1).
  Proof.
    intros Hm Hl. pose proof (lv_step m). split; [unfold item; lia|]. right.
    assert (0 <= L (m - 1)) by (apply lv_nonneg; unfold item; lia).
    split; [lia|]. split; [lia|]. split; [lia|]. intros; lia.
  Qed.

  (** after the step only the parent's first/last and the previous sibling's next change *)
  Lemma old_node m i x : node_ok m i x -> 0 <= i < m -> m < n ->
    (~ is_parent ls m i) -> (~ is_prev ls m i) -> node_ok (m + 1) i x.
  Proof.
    intros [] Hi Hm Np Nv. constructor; auto.
    - destruct nk_next0 as [[E H]|[H1 H2]]; [left|right; split; [lia|exact H2]]. split; [exact E|]. intros j [Hj Pj].
      destruct (Z.eq_dec j m) as [->|]; [contradiction|]. apply (H j). split; [lia|exact Pj].
    - destruct nk_first0 as [[E H]|[H1 H2]]; [left|right; split; [lia|exact H2]]. split; [exact E|]. intros j (Hj & Pj & Qj).
      destruct (Z.eq_dec j m) as [->|]; [contradiction|]. apply (H j). split; [lia|now split].
    - destruct nk_last0 as [[E H]|(H1 & H2 & H3)].
      + left. split; [exact E|]. intros j (Hj & Pj & Qj). destruct (Z.eq_dec j m) as [->|]; [contradiction|]. apply (H j). split; [lia|]. split; [exact Pj|]. intros; apply Qj; auto; lia.
      + right. split; [lia|]. split; [exact H2|]. intros c' Hc' Pc. destruct (Z.eq_dec c' m) as [->|]; [contradiction|]. apply H3; auto; lia.
  Qed.
  Lemma parent_lt c p : is_parent ls c p -> p <> n -> p < c.
  Proof. intros (_ & [(A & ->)|(A & B & C & D)]) H; [contradiction|lia]. Qed.

  Lemma new_node m x :
    0 <= m < n -> is_parent ls m (on_parent x) -> link_to (is_prev ls m) (on_prev x) ->
    on_next x = -1 -> on_first x = -1 -> on_last x = -1 -> node_ok (m + 1) m x.
  Proof.
    intros Hm Hp Hv E1 E2 E3. constructor; auto.
    - left. split; [exact E1|]. intros j [Hj Pj]. destruct Pj as [Pj _]. lia.
    - left. split; [exact E2|]. intros j (Hj & Pj & _). apply parent_lt in Pj; lia.
    - left. split; [exact E3|]. intros j (Hj & Pj & _). apply parent_lt in Pj; lia.
  Qed.

  Lemma siblings_prev_unique i j k : is_prev ls i j -> is_prev ls i k -> j = k.
  Proof.
    intros (A & B & C) (A' & B' & C'). destruct (Z.lt_trichotomy j k) as [X|[X|X]]; [|exact X|].
    - exfalso. apply (C k); [lia|exact B'].
    - exfalso. apply (C' j); [lia|exact B].
  Qed.

  (** parent updated with a later child *)
  Lemma parent_later m p x : node_ok m p x -> m < n -> 0 <= p < m -> is_parent ls m p ->
    (exists j, is_prev ls m j) -> node_ok (m + 1) p (on_last_set m x).
  Proof.
    intros [] Hm Hp Pm (j & Hj).
    assert (Np : ~ is_prev ls m p).
    { intros (_ & Hs & _). apply siblings_level in Hs. destruct Pm as (_ & [(A & ->)|(A & B & C & D)]); [unfold count_items in *; lia|lia]. }
    assert (Pj : is_parent ls j p). { destruct Hj as (_ & (q & Q1 & Q2) & _). now rewrite (parent_unique m p q Pm Q1). }
    assert (Jm : j < m) by apply Hj.
    constructor; auto.
    - cbn. destruct nk_next0 as [[E H]|[H1 H2]]; [left|right; split; [lia|exact H2]]. split; [exact E|]. intros k [Hk Pk].
      destruct (Z.eq_dec k m) as [->|]; [contradiction|]. apply (H k). split; [lia|exact Pk].
    - cbn. destruct nk_first0 as [[E H]|[H1 H2]]; [|right; split; [lia|exact H2]]. exfalso.
      (* there is a least child *)
      assert (G : forall f c, (Z.to_nat c <= f)%nat -> 0 <= c < m -> is_parent ls c p -> False).
      { induction f as [|f IH]; intros c Hf Hc Pc.
        - apply (H c). split; [lia|]. split; [exact Pc|]. intros c' ((Hc' & _) & _). lia.
        - apply (H c). split; [lia|]. split; [exact Pc|]. intros c' Pc'. destruct (Z_le_gt_dec c c') as [|Hgt]; [assumption|exfalso].
          assert (0 <= c') by apply Pc'. apply (IH c'); auto; lia. }
      assert (0 <= j) by apply Pj. apply (G (Z.to_nat j) j); auto.
    - cbn. right. split; [lia|]. split; [exact Pm|]. intros; lia.
  Qed.
  Lemma parent_first m x : node_ok m (m - 1) x -> 0 < m < n -> L (m - 1) < L m ->
    node_ok (m + 1) (m - 1) (on_first_set m (on_last_set m x)).
  Proof.
    intros [] Hm Hl. pose proof (step_first m Hm Hl) as Pm.
    assert (Np : ~ is_prev ls m (m - 1)) by (apply no_prev; [unfold item; lia|now right]).
    constructor; auto; cbn.
    - destruct nk_next0 as [[E H]|[H1 H2]]; [left|right; split; [lia|exact H2]]. split; [exact E|]. intros k [Hk Pk].
      destruct (Z.eq_dec k m) as [->|]; [contradiction|]. apply (H k). split; [lia|exact Pk].
    - right. split; [lia|]. split; [exact Pm|]. intros c' Pc. apply parent_lt in Pc; lia.
    - right. split; [lia|]. split; [exact Pm|]. intros; lia.
  Qed.
  Lemma prev_node m j x : node_ok m j x -> 0 <= j < m -> m < n -> is_prev ls m j -> node_ok (m + 1) j (on_next_set m x).
  Proof.
    intros [] Hj Hm Pj.
    assert (Np : ~ is_parent ls m j).
    { intros Pm. destruct Pj as (_ & Hs & _). apply siblings_level in Hs. destruct Pm as (_ & [(A & ->)|(A & B & C & D)]); lia. }
    constructor; auto; cbn.
    - right. split; [lia|exact Pj].
    - destruct nk_first0 as [[E H]|[H1 H2]]; [left|right; split; [lia|exact H2]]. split; [exact E|]. intros k (Hk & Pk & Qk).
      destruct (Z.eq_dec k m) as [->|]; [contradiction|]. apply (H k). split; [lia|now split].
    - destruct nk_last0 as [[E H]|(H1 & H2 & H3)].
      + left. split; [exact E|]. intros k (Hk & Pk & Qk). destruct (Z.eq_dec k m) as [->|]; [contradiction|]. apply (H k). split; [lia|]. split; [exact Pk|]. intros; apply Qk; auto; lia.
      + right. split; [lia|]. split; [exact H2|]. intros c' Hc' Pc. destruct (Z.eq_dec c' m) as [->|]; [contradiction|]. apply H3; auto; lia.
  Qed.

  Lemma parent_lev m p : is_parent ls m p -> 0 < L m -> L p = L m - 1 /\ 0 <= p < m.
  Proof. intros (_ & [(A & ->)|(A & B & C & D)]) H; lia. Qed.

  Definition step (m level : Z) (lru : list (Z * Z)) (ns : list onode) : list onode :=
    let ns :=
      if 0 <? L m then
        let parent := lru_get (L m - 1) lru in
        let ns := upd m (on_parent_set parent) ns in
        let ns := upd parent (on_last_set m) ns in
        if level <? L m then upd parent (on_first_set m) ns else ns
      else upd m (on_parent_set n) ns in
    if (L m <=? level) && (0 <? m) then
      let prev := lru_get (L m) lru in
      upd m (on_prev_set prev) (upd prev (on_next_set m) ns)
    else ns.

  Lemma step_inv m level lru ns : m < n -> inv m lru level ns -> inv (m + 1) ((L m, m) :: lru) (L m) (step m level lru ns).
  Proof.
    intros Hm I. pose proof (iv_m _ _ _ _ I) as M0. pose proof (iv_len _ _ _ _ I) as Len.
    assert (In_m : item ls m) by (unfold item; lia). pose proof (lv_nonneg m In_m) as Lm.
    assert (Old := iv_old _ _ _ _ I). assert (New := iv_new _ _ _ _ I).
    assert (Len' : length (step m level lru ns) = length ns).
    { unfold step. cbv zeta. repeat match goal with |- context [if ?b then _ else _] => destruct b end; rewrite ?upd_length; reflexivity. }
    destruct (at_some ns m) as (xm & Exm); [lia|].
    assert (Fm : xm = fresh_node) by (apply (New m); auto; lia). subst xm.
    assert (Nopar : forall i, 0 <= i < m -> is_parent ls m i -> 0 < L m).
    { intros i Hi (_ & [(A & E)|(A & B & C & D)]); [lia|lia]. }
    constructor.
    - lia.
    - rewrite Len'. exact Len.
    - apply (lru_step m lru level ns I). lia.
    - right. split; [lia|]. f_equal. lia.
    - intros i x Hi Ex.
      destruct (Z.eq_dec m 0) as [->|Hm0].
      + (* the first item *)
        assert (L0 : L 0 = 0). { destruct WN as [W0 _]. apply W0. intros E0. unfold count_items in *. rewrite E0 in *. cbn in *. lia. }
        assert (i = 0) by lia. subst i. unfold step in Ex. rewrite L0 in Ex. rewrite Z.ltb_irrefl, andb_false_r in Ex.
        rewrite at_upd, Z.eqb_refl, Exm in Ex. injection Ex as <-. apply new_node; [lia|cbn|cbn|reflexivity..].
        * split; [exact In_m|]. left. split; [exact L0|reflexivity].
        * left. split; [reflexivity|]. apply no_prev; auto.
      + assert (Lev : level = L (m - 1)). { destruct (iv_level _ _ _ _ I) as [[? ?]|[? ?]]; [lia|assumption]. }
        destruct (Z_lt_le_dec (L (m - 1)) (L m)) as [Hd|Hd].
        * (* first child of the item before *)
          assert (0 <= L (m - 1)) by (apply lv_nonneg; unfold item; lia).
          destruct (step_parent m lru level ns I Hm ltac:(lia)) as [Pp _].
          pose proof (step_first m ltac:(lia) Hd) as Pf.
          unfold step in Ex. replace (0 <? L m) with true in Ex by lia. replace (L m <=? level) with false in Ex by lia.
          replace (level <? L m) with true in Ex by lia. cbv zeta in Ex. cbn [andb] in Ex.
          rewrite (parent_unique _ _ _ Pp Pf) in Ex. rewrite !at_upd in Ex.
          destruct (Z.eq_dec i m) as [->|Him].
          { rewrite Z.eqb_refl, Exm in Ex. replace (m =? m - 1) with false in Ex by lia. injection Ex as <-.
            apply new_node; [lia|exact Pf|idtac|reflexivity..]; cbn. left. split; [reflexivity|]. apply no_prev; auto. }
          replace (i =? m) with false in Ex by lia. destruct (Z.eq_dec i (m - 1)) as [->|Hi1].
          { rewrite Z.eqb_refl in Ex. destruct (at_ ns (m - 1)) as [y|] eqn:Ey; [|discriminate]. injection Ex as <-.
            apply parent_first; auto; [apply Old; auto; lia|lia]. }
          replace (i =? m - 1) with false in Ex by lia. apply old_node; [apply Old; auto; lia|lia|lia| |].
          -- intros Pi. apply Hi1. apply (parent_unique m); auto.
          -- apply no_prev; auto.
        * (* a later sibling *)
          destruct (step_prev m lru level ns I ltac:(lia) Hd) as [Pv Hj]. set (j := lru_get (L m) lru) in *.
          assert (Lj : L j = L m). { symmetry. apply siblings_level. apply Pv. }
          destruct (Z.eq_dec (L m) 0) as [Z0|Z0].
          -- assert (Pp : is_parent ls m n) by (split; [exact In_m|]; left; auto).
             unfold step in Ex. replace (0 <? L m) with false in Ex by lia. replace (L m <=? level) with true in Ex by lia. replace (0 <? m) with true in Ex by lia.
             cbv zeta in Ex. cbn [andb] in Ex. fold j in Ex. rewrite !at_upd in Ex.
             destruct (Z.eq_dec i m) as [->|Him].
             { rewrite Z.eqb_refl, Exm in Ex. replace (m =? j) with false in Ex by lia. injection Ex as <-. apply new_node; [lia|exact Pp|idtac|reflexivity..]; cbn. right. exact Pv. }
             replace (i =? m) with false in Ex by lia. destruct (Z.eq_dec i j) as [->|Hij].
             { rewrite Z.eqb_refl in Ex. destruct (at_ ns j) as [y|] eqn:Ey; [|discriminate]. injection Ex as <-. apply prev_node; auto. }
             replace (i =? j) with false in Ex by lia. apply old_node; [apply Old; auto; lia|lia|lia| |].
             ++ intros Pi. apply Nopar in Pi; lia.
             ++ intros Pi. apply Hij. apply (siblings_prev_unique m); auto.
          -- destruct (step_parent m lru level ns I Hm ltac:(lia)) as [Pp Hp]. set (q := lru_get (L m - 1) lru) in *.
             destruct (parent_lev _ _ Pp ltac:(lia)) as [Lq _]. assert (Nqj : q <> j) by (intros E; rewrite E in *; lia).
             unfold step in Ex. replace (0 <? L m) with true in Ex by lia. replace (L m <=? level) with true in Ex by lia. replace (0 <? m) with true in Ex by lia.
             replace (level <? L m) with false in Ex by lia. cbv zeta in Ex. cbn [andb] in Ex. fold j in Ex. fold q in Ex. rewrite !at_upd in Ex.
             destruct (Z.eq_dec i m) as [->|Him].
             { rewrite Z.eqb_refl, Exm in Ex. replace (m =? j) with false in Ex by lia. replace (m =? q) with false in Ex by lia. injection Ex as <-. apply new_node; [lia|exact Pp|idtac|reflexivity..]; cbn. right. exact Pv. }
             replace (i =? m) with false in Ex by lia. destruct (Z.eq_dec i j) as [Eij|Hij].
             { rewrite Eij in *. rewrite Z.eqb_refl in Ex. replace (j =? q) with false in Ex by lia. destruct (at_ ns j) as [y|] eqn:Ey; [|discriminate]. injection Ex as <-. apply prev_node; auto. }
             replace (i =? j) with false in Ex by lia. destruct (Z.eq_dec i q) as [Eiq|Hiq].
             { rewrite Eiq in *. rewrite Z.eqb_refl in Ex. destruct (at_ ns q) as [y|] eqn:Ey; [|discriminate]. injection Ex as <-. apply parent_later; eauto. }
             replace (i =? q) with false in Ex by lia. apply old_node; [apply Old; auto; lia|lia|lia| |].
             ++ intros Pi. apply Hiq. apply (parent_unique m); auto.
             ++ intros Pi. apply Hij. apply (siblings_prev_unique m); auto.
    - intros i x Hi Ex. destruct (at_ ns i) as [y|] eqn:Ey.
      + assert (y = fresh_node) by (apply (New i); auto; lia). subst y.
        assert (X : forall p, 0 < L m -> p = lru_get (L m - 1) lru -> i <> p).
        { intros p H ->. destruct (step_parent m lru level ns I Hm H). lia. }
        assert (Y : forall j, 0 < m -> L m <= level -> j = lru_get (L m) lru -> i <> j).
        { intros j H1 H2 ->. destruct (iv_level _ _ _ _ I) as [[? ?]|[? ?]]; [lia|]. destruct (step_prev m lru level ns I); lia. }
        unfold step in Ex. cbv zeta in Ex.
        destruct (0 <? L m) eqn:E1, ((L m <=? level) && (0 <? m)) eqn:E2, (level <? L m) eqn:E3; try (apply andb_true_iff in E2; destruct E2);
          rewrite ?at_upd in Ex; replace (i =? m) with false in Ex by lia;
          try (replace (i =? lru_get (L m - 1) lru) with false in Ex by (symmetry; apply Z.eqb_neq; apply X; [lia|reflexivity]));
          try (replace (i =? lru_get (L m) lru) with false in Ex by (symmetry; apply Z.eqb_neq; apply Y; [lia|lia|reflexivity]));
          congruence.
      + exfalso. unfold at_ in Ex, Ey. destruct (i <? 0); [discriminate|]. apply nth_error_None in Ey.
        assert (nth_error (step m level lru ns) (Z.to_nat i) <> None) by congruence. apply nth_error_Some in H. lia.
  Qed.

  Lemma loop_inv : forall rest m lru level ns, skipn (Z.to_nat m) ls = rest -> inv m lru level ns ->
    exists lru' level' ns', link_loop n m rest lru level ns = (ns', lru') /\ inv n lru' level' ns'.
  Proof.
    induction rest as [|v rest IH]; intros m lru level ns E I; pose proof (iv_m _ _ _ _ I) as M0.
    - assert (m = n). { unfold count_items in *. assert (length (skipn (Z.to_nat m) ls) = 0)%nat by now rewrite E. rewrite skipn_length in H. lia. }
      subst m. exists lru, level, ns. split; [reflexivity|exact I].
    - assert (Hm : m < n). { unfold count_items in *. assert (length (skipn (Z.to_nat m) ls) = S (length rest))%nat by now rewrite E. rewrite skipn_length in H. lia. }
      assert (v = L m). { unfold lv. rewrite <- (firstn_skipn (Z.to_nat m) ls), E. rewrite app_nth2; rewrite firstn_length_le; unfold count_items in *; try lia. rewrite Nat.sub_diag. reflexivity. }
      subst v. cbn [link_loop]. fold (step m level lru ns).
      destruct (IH (m + 1) ((L m, m) :: lru) (L m) (step m level lru ns)) as (a & b & c & E1 & E2).
      + replace (Z.to_nat (m + 1)) with (S (Z.to_nat m)) by lia. clear - E. revert E. generalize (Z.to_nat m) as k. generalize (L m) as v. generalize ls as l. induction l as [|a l IH]; intros v [|k] E; try discriminate; [cbn in E |- *; congruence|]. apply (IH v k E).
      + now apply step_inv.
      + exists a, b, c. split; [|exact E2]. rewrite <- E1. reflexivity.
  Qed.

  (** every item of the finished tree, and the last item of level 0 *)
  Lemma outlines_linked : exists ns lru, link_outlines ls = (ns, lru) /\ length ns = length ls /\
    (forall i x, at_ ns i = Some x -> item ls i /\ is_parent ls i (on_parent x) /\ link_to (is_prev ls i) (on_prev x) /\
       link_to (fun j => is_prev ls j i) (on_next x) /\ link_to (is_first ls i) (on_first x) /\ link_to (is_last ls i) (on_last x)) /\
    (ls <> [] -> is_first ls n 0 /\ is_last ls n (lru_get 0 lru)).
  Proof.
    destruct (loop_inv ls 0 [] 0 (repeat fresh_node (length ls))) as (lru & level & ns & E & I).
    - reflexivity.
    - constructor.
      + unfold count_items. lia.
      + rewrite repeat_length. reflexivity.
      + intros v j (H & _). lia.
      + left. split; reflexivity.
      + intros; lia.
      + intros i x Hi. unfold at_. destruct (i <? 0); [discriminate|]. intros Ex. apply nth_error_In in Ex. now apply repeat_spec in Ex.
    - exists ns, lru. split; [exact E|]. split; [pose proof (iv_len _ _ _ _ I); unfold count_items in *; lia|]. split.
      + intros i x Ex. assert (Hi : 0 <= i < n).
        { rewrite <- (iv_len _ _ _ _ I). unfold at_ in Ex. destruct (i <? 0) eqn:E0; [discriminate|].
          assert (nth_error ns (Z.to_nat i) <> None) by congruence. apply nth_error_Some in H. lia. }
        destruct (iv_old _ _ _ _ I i x Hi Ex) as [A B C D F].
        assert (U : forall c, is_parent ls c i -> c < n) by (intros c ((? & ?) & _); lia).
        split; [exact Hi|]. split; [exact A|]. split; [exact B|]. split; [|split].
        * destruct C as [[C1 C2]|[C1 C2]]; [left|right; exact C2]. split; [exact C1|]. intros j Hj. apply (C2 j). split; [|exact Hj]. apply prev_sym in Hj. unfold item in Hj. lia.
        * destruct D as [[C1 C2]|[C1 C2]]; [left|right; exact C2]. split; [exact C1|]. intros j Hj. apply (C2 j). split; [apply U; apply Hj|exact Hj].
        * destruct F as [[C1 C2]|(C1 & C2 & C3)]; [left|right].
          -- split; [exact C1|]. intros j [Hj Hj']. apply (C2 j). split; [now apply U|]. split; [exact Hj|]. intros; now apply Hj'.
          -- split; [exact C2|]. intros c' Hc. apply C3; auto.
      + intros Hne. assert (L0 : L 0 = 0) by (destruct WN as [W0 _]; now apply W0).
        assert (N0 : 0 < n) by (unfold count_items; destruct ls; [contradiction|cbn; lia]).
        destruct (last_at_exists n 0 ltac:(lia)) as (j & Hj); [exists 0; lia|].
        rewrite (iv_lru _ _ _ _ I _ _ Hj). destruct Hj as (Hj & Ej & Hk).
        split; split.
        * split; [unfold item; lia|]. left. auto.
        * intros c' ((? & ?) & _). lia.
        * split; [unfold item; lia|]. left. auto.
        * intros c' (Ic & [(A & _)|(A & B & _)]); [|unfold item in Ic; lia]. destruct (Z_le_gt_dec c' j); [assumption|]. exfalso. apply (Hk c'); [unfold item in Ic; lia|exact A].
  Qed.
End Tree.
