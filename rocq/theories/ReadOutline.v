(** C92: following /First and /Next through an outline tree visits the items in their order *)
From Verif Require Import Base TextModel TextSpec TextProofs Crypto DocModel DocSpec DocSort DocProofs DocWalk PageSpec DocPage DocParts OutlineSpec DocOutline ReadSpec ReadProofs.
From Coq Require Import String.
Open Scope Z_scope.
Notation length := List.length.
Local Notation "a +++ b" := (List.app a b) (at level 60, right associativity, only parsing).

Lemma firstn_plus {A} (l : list A) : forall a b, firstn (a + b) l = firstn a l +++ firstn b (skipn a l).
Proof. induction l as [|x l IH]; intros [|a] b; try reflexivity; [now rewrite !firstn_nil|]. cbn. now rewrite IH. Qed.
Lemma skipn_plus {A} (l : list A) : forall a b, skipn b (skipn a l) = skipn (a + b) l.
Proof. induction l as [|x l IH]; intros [|a] b; try reflexivity; [now rewrite !skipn_nil|]. cbn. apply IH. Qed.
Section Tree.
  Variable ls : list Z.
  Hypothesis WN : well_nested ls.
  Local Notation n := (count_items ls).
  Local Notation L := (lv ls).

  Lemma first_char i f : item ls i -> link_to (is_first ls i) f ->
    (i + 1 < n /\ L (i + 1) = L i + 1 -> f = i + 1) /\ (i + 1 = n \/ L (i + 1) <= L i -> f = -1).
  Proof using WN.
    intros Hi Hf. pose proof (lv_nonneg ls WN i Hi) as Hnn. split.
    - intros [Hn Hl]. assert (P : is_parent ls (i + 1) i). { split; [unfold item in *; lia|]. right. split; [lia|]. split; [unfold item in *; lia|]. split; [lia|]. intros j Hj. lia. }
      assert (G : forall c, is_parent ls c i -> i + 1 <= c).
      { intros c (_ & [(_ & E)|(_ & H & _)]); unfold item in *; lia. }
      destruct Hf as [[_ N]|[P1 P2]]; [exfalso; apply (N (i + 1)); now split|]. specialize (P2 _ P). specialize (G _ P1). lia.
    - intros Hn. destruct Hf as [[E _]|[(If & [(_ & E)|(A & B & C & D)]) _]]; [exact E|unfold item in *; lia|]. exfalso. unfold item in *.
      destruct (Z.eq_dec f (i + 1)) as [->|Hne]; [lia|]. assert (L (i + 1) <> L f - 1) by (apply D; lia).
      destruct (ivt' ls WN (L i - 1) (i + 1) f) as (k & Hk & Ek); try lia. destruct (Z.eq_dec k f) as [->|]; [lia|]. apply (D k); lia.
  Qed.
  Lemma next_char i x j : item ls i -> link_to (fun j => is_prev ls j i) x -> i < j <= n -> (forall k, i < k < j -> L i < L k) ->
    (j < n /\ L j = L i -> x = j) /\ (j = n \/ L j < L i -> x = -1).
  Proof using WN.
    intros Hi Hx Hj Hb. pose proof (lv_nonneg ls WN i Hi) as Hnn. split.
    - intros [Hn Hl]. assert (P : is_prev ls j i). { apply prev_char; [exact WN|unfold item in *; lia|unfold item in *; lia|lia|]. intros k Hk. rewrite Hl. now apply Hb. }
      destruct Hx as [[_ N]|P2]; [exfalso; exact (N j P)|].
      pose proof P2 as (Hlt & (p & Q1 & Q2) & Hno). destruct P as (_ & (p' & R1 & R2) & Hno').
      assert (p' = p) by (eapply parent_unique; eassumption). subst p'.
      destruct (Z.lt_trichotomy x j) as [H|[H|H]]; [|exact H|].
      + exfalso. apply (Hno' x); [lia|]. exists p. now split.
      + exfalso. apply (Hno j); [lia|]. exists p. now split.
    - intros Hn. destruct Hx as [[E _]|P]; [exact E|]. exfalso. pose proof P as (Hlt & Sb & _).
      pose proof (siblings_level _ _ _ Sb) as El. destruct Sb as (p & (Ix & Q1) & (_ & Q2)). unfold item in *.
      destruct (Z_lt_le_dec x j) as [H|H]; [specialize (Hb x); lia|].
      destruct Hn as [->|Hn]; [lia|]. assert (x <> j) by (intros ->; lia).
      assert (0 <= L j) by (apply lv_nonneg; [exact WN|unfold item; lia]).
      destruct Q1 as [(A & _)|(A & B & C & D)]; [lia|]. assert (p < i) by (destruct Q2 as [(A' & ->)|(A' & B' & C' & D')]; lia).
      assert (L j <> L x - 1) by (apply D; lia).
      destruct (ivt' ls WN (L i - 2) j x) as (k & Hk & Ek); try lia. destruct (Z.eq_dec k x) as [->|]; [lia|]. apply (D k); lia.
  Qed.

  Section Walk.
    Variables (ol : list (Z * bytes)) (items : nat -> Z -> Z -> option (list (Z * bytes))) (base : Z).
    Hypothesis Hol : map fst ol = ls.
    Hypothesis step : forall i p fuel, nth_error ol i = Some p -> exists next first,
      link_to (fun j => is_prev ls j (Z.of_nat i)) next /\ link_to (is_first ls (Z.of_nat i)) first /\
      items (S fuel) (fst p) (base + Z.of_nat i) =
        (below <- (if first =? -1 then Some [] else items fuel (fst p + 1) (base + first)) ;;
         rest <- (if next =? -1 then Some [] else items fuel (fst p) (base + next)) ;;
         Some (p :: below ++ rest)).

    Definition slice (a b : Z) : list (Z * bytes) := firstn (Z.to_nat (b - a)) (skipn (Z.to_nat a) ol).
    Lemma slice_app a b c : 0 <= a <= b -> b <= c -> slice a b +++ slice b c = slice a c.
    Proof using.
      clear. intros H1 H2. unfold slice. replace (Z.to_nat (c - a)) with (Z.to_nat (b - a) + Z.to_nat (c - b))%nat by lia.
      rewrite firstn_plus, skipn_plus. do 3 f_equal. lia.
    Qed.
    Lemma slice_one i p : nth_error ol i = Some p -> slice (Z.of_nat i) (Z.of_nat i + 1) = [p].
    Proof using.
      clear. intros H. unfold slice. replace (Z.to_nat (Z.of_nat i + 1 - Z.of_nat i)) with 1%nat by lia. rewrite Nat2Z.id.
      apply nth_error_split in H as (a & b & -> & <-). rewrite skipn_app, skipn_all, Nat.sub_diag. reflexivity.
    Qed.
    Lemma level_of i p : nth_error ol i = Some p -> L (Z.of_nat i) = fst p.
    Proof using Hol.
      intros H. unfold lv. rewrite Nat2Z.id, <- Hol. apply nth_error_nth. rewrite nth_error_map, H. reflexivity.
    Qed.
    Lemma walk : forall fuel i, item ls (Z.of_nat i) -> n - Z.of_nat i <= Z.of_nat fuel ->
      exists e, Z.of_nat i < e <= n /\ (forall k, Z.of_nat i <= k < e -> L (Z.of_nat i) <= L k) /\ (e = n \/ L e < L (Z.of_nat i)) /\
        items fuel (L (Z.of_nat i)) (base + Z.of_nat i) = Some (slice (Z.of_nat i) e).
    Proof using WN Hol step.
      induction fuel as [|fuel IH]; intros i Hi Hf; [unfold item in Hi; lia|].
      assert (Hp : exists p, nth_error ol i = Some p).
      { destruct (nth_error ol i) eqn:E; [eauto|]. apply nth_error_None in E. unfold item, count_items in Hi. rewrite <- Hol, map_length in Hi. lia. }
      destruct Hp as (p & Hp). pose proof (level_of _ _ Hp) as El. destruct (step i p fuel Hp) as (next & first & Hn & Hfst & Es).
      destruct (first_char _ _ Hi Hfst) as [F1 F2].
      assert (C : exists e1 below, Z.of_nat i < e1 <= n /\ (forall k, Z.of_nat i < k < e1 -> L (Z.of_nat i) < L k) /\ (e1 = n \/ L e1 <= L (Z.of_nat i)) /\
         (if first =? -1 then Some [] else items fuel (fst p + 1) (base + first)) = Some below /\ below = slice (Z.of_nat i + 1) e1).
      { assert (D : (Z.of_nat i + 1 < n /\ L (Z.of_nat i + 1) = L (Z.of_nat i) + 1) \/ (Z.of_nat i + 1 = n \/ L (Z.of_nat i + 1) <= L (Z.of_nat i))).
        { unfold item in Hi. destruct (Z.eq_dec (Z.of_nat i + 1) n); [tauto|]. pose proof (lv_step ls WN (Z.of_nat i + 1)) as X.
          replace (Z.of_nat i + 1 - 1) with (Z.of_nat i) in X by lia. specialize (X ltac:(lia)). lia. }
        destruct D as [D|D].
        - rewrite (F1 D). destruct D as [D1 D2]. destruct (IH (S i)) as (e1 & E1 & E2 & E3 & E4); [unfold item in *; lia|lia|].
          replace (Z.of_nat (S i)) with (Z.of_nat i + 1) in * by lia. exists e1, (slice (Z.of_nat i + 1) e1). split; [lia|]. split; [intros k Hk; specialize (E2 k); lia|]. split; [lia|].
          split; [|reflexivity]. replace (Z.of_nat i + 1 =? -1) with false by lia. rewrite <- El, <- D2. exact E4.
        - rewrite (F2 D). exists (Z.of_nat i + 1), []. unfold item in Hi. split; [lia|]. split; [intros; lia|]. split; [lia|]. split; [reflexivity|].
          unfold slice. now rewrite Z.sub_diag. }
      destruct C as (e1 & below & E1 & E2 & E3 & EB & Eb). rewrite EB in Es.
      destruct (next_char _ _ e1 Hi Hn ltac:(lia) E2) as [N1 N2].
      assert (D : (e1 < n /\ L e1 = L (Z.of_nat i)) \/ (e1 = n \/ L e1 < L (Z.of_nat i))) by lia.
      destruct D as [D|D].
      - rewrite (N1 D) in Es. destruct D as [D1 D2]. destruct (IH (Z.to_nat e1)) as (e2 & G1 & G2 & G3 & G4); [unfold item in *; lia|lia|].
        replace (Z.of_nat (Z.to_nat e1)) with e1 in * by lia. exists e2. split; [lia|]. split; [|split; [lia|]].
        + intros k Hk. destruct (Z_lt_le_dec k e1); [destruct (Z.eq_dec k (Z.of_nat i)) as [->|]; [lia|specialize (E2 k); lia]|specialize (G2 k); lia].
        + rewrite El, Es. replace (e1 =? -1) with false by lia. rewrite D2, El in G4. rewrite G4. cbn [bind]. rewrite Eb.
          change (p :: slice (Z.of_nat i + 1) e1 +++ slice e1 e2) with ([p] +++ slice (Z.of_nat i + 1) e1 +++ slice e1 e2).
          rewrite <- (slice_one i p Hp). rewrite !slice_app by lia. reflexivity.
      - rewrite (N2 D) in Es. exists e1. split; [lia|]. split; [|split; [exact D|]].
        + intros k Hk. destruct (Z.eq_dec k (Z.of_nat i)) as [->|]; [lia|]. specialize (E2 k); lia.
        + rewrite El, Es. change (-1 =? -1) with true. cbv iota. cbn [bind]. rewrite app_nil_r, Eb.
          change (p :: slice (Z.of_nat i + 1) e1) with ([p] +++ slice (Z.of_nat i + 1) e1). rewrite <- (slice_one i p Hp). rewrite slice_app by lia. reflexivity.
    Qed.
    Lemma walk_all fuel : ls <> [] -> n <= Z.of_nat fuel -> items fuel 0 base = Some ol.
    Proof using WN Hol step.
      intros Hne Hf. assert (Hn : 0 < n). { unfold count_items. destruct ls; [contradiction|cbn; lia]. }
      destruct (walk fuel 0%nat) as (e & E1 & E2 & E3 & E4); [unfold item; cbn; lia|cbn; lia|].
      assert (L0 : L 0 = 0) by (destruct WN as [W0 _]; now apply W0).
      change (Z.of_nat 0) with 0 in *. rewrite L0 in *. rewrite Z.add_0_r in E4. rewrite E4. f_equal.
      assert (He : e = n). { destruct E3 as [E3|E3]; [exact E3|]. destruct (Z.eq_dec e n) as [|Hx]; [assumption|]. pose proof (lv_nonneg ls WN e). unfold item in *. lia. }
      subst e. unfold slice. rewrite Z.sub_0_r. cbn [Z.to_nat skipn]. apply firstn_all2. unfold count_items. rewrite <- Hol, map_length. lia.
    Qed.
  End Walk.
End Tree.
