(** Ordering of map entries and of templates. *)
From Verif Require Import Base TextModel Crypto DocModel DocSpec.
From Coq Require Import String Permutation Sorted.
Open Scope Z_scope.
Notation length := List.length.
Local Notation "a +++ b" := (List.app a b) (at level 60, right associativity, only parsing).

(** ** Stable insertion sort *)
Lemma insert_by_perm {A} (lt : A -> A -> bool) x l : Permutation (insert_by lt x l) (x :: l).
Proof.
  induction l as [|y l IH]; [reflexivity|]. cbn. destruct (lt y x || negb (lt x y)); [|reflexivity].
  rewrite IH. apply perm_swap.
Qed.
Lemma sort_by_perm_gen {A} (lt : A -> A -> bool) l : forall acc, Permutation (fold_left (fun acc x => insert_by lt x acc) l acc) (l +++ acc).
Proof.
  induction l as [|x l IH]; intros acc; [reflexivity|]. cbn. rewrite IH, insert_by_perm. symmetry. apply Permutation_middle.
Qed.
Lemma sort_by_perm {A} (lt : A -> A -> bool) l : Permutation (sort_by lt l) l.
Proof. unfold sort_by. rewrite sort_by_perm_gen. now rewrite app_nil_r. Qed.

(** keys: a strict order and a way to compare *)
Record strict_total {K} (lt : K -> K -> bool) : Prop := {
  st_irr : forall a, lt a a = false;
  st_trans : forall a b c, lt a b = true -> lt b c = true -> lt a c = true;
  st_total : forall a b, a <> b -> lt a b = true \/ lt b a = true }.

Section Sorted_.
  Context {A K : Type} (key : A -> K) (lt : K -> K -> bool) (S : strict_total lt).
  Let ltA (a b : A) := lt (key a) (key b).
  Definition leK (a b : A) : Prop := lt (key b) (key a) = false.
  Lemma leK_trans a b c : leK a b -> leK b c -> leK a c.
  Proof.
    unfold leK. intros H1 H2. destruct (lt (key c) (key a)) eqn:E; [|reflexivity]. exfalso.
    destruct (lt (key c) (key b)) eqn:E2; [discriminate|].
    destruct (lt (key b) (key c)) eqn:E3.
    - rewrite (st_trans lt S _ _ _ E3 E) in H1. discriminate.
    - assert (key b = key c \/ key b <> key c) as [X|X].
      { destruct (lt (key b) (key a)) eqn:E4; [discriminate|]. destruct (lt (key c) (key a)) eqn:E5; [|discriminate].
        right. intros X. congruence. }
      + congruence.
      + destruct (st_total lt S _ _ X) as [Y|Y]; congruence.
  Qed.
  Lemma insert_sorted x l : StronglySorted leK l -> StronglySorted leK (insert_by ltA x l).
  Proof.
    induction 1 as [|y l Hs IH Hf]; cbn; [repeat constructor|].
    destruct (ltA y x || negb (ltA x y)) eqn:E.
    - assert (Hyx : leK y x).
      { unfold leK. unfold ltA in E. apply orb_prop in E as [E|E].
        - destruct (lt (key x) (key y)) eqn:E2; [|reflexivity]. pose proof (st_trans lt S _ _ _ E E2) as X. now rewrite (st_irr lt S) in X.
        - now apply negb_true_iff in E. }
      constructor; [exact IH|]. eapply Permutation_Forall; [symmetry; apply insert_by_perm|]. now constructor.
    - apply orb_false_elim in E as [E1 E2]. apply negb_false_iff in E2.
      assert (Hxy : leK x y) by exact E1.
      constructor; [now constructor|]. constructor; [exact Hxy|]. eapply Forall_impl; [|exact Hf]. intros z Hz. eapply leK_trans; eauto.
  Qed.
  Lemma sort_sorted l : StronglySorted leK (sort_by ltA l).
  Proof.
    unfold sort_by. assert (G : forall l acc, StronglySorted leK acc -> StronglySorted leK (fold_left (fun acc x => insert_by ltA x acc) l acc)).
    { induction l0 as [|x l0 IH]; intros acc H; [exact H|]. cbn. apply IH. now apply insert_sorted. }
    apply G. constructor.
  Qed.
  (** two sorted permutations with pairwise distinct keys are equal *)
  Lemma sorted_unique l1 : forall l2, StronglySorted leK l1 -> StronglySorted leK l2 -> Permutation l1 l2 -> NoDup (map key l1) -> l1 = l2.
  Proof.
    induction l1 as [|x l1 IH]; intros l2 H1 H2 P N.
    - now apply Permutation_nil in P.
    - destruct l2 as [|y l2]; [apply Permutation_sym, Permutation_nil in P; discriminate|].
      inversion H1 as [|? ? S1 F1]; subst. inversion H2 as [|? ? S2 F2]; subst. inversion N as [|? ? Nx Nl]; subst.
      assert (x = y).
      { assert (Iy : In y (x :: l1)) by (eapply Permutation_in; [symmetry; exact P|now left]).
        assert (Ix : In x (y :: l2)) by (eapply Permutation_in; [exact P|now left]).
        destruct Iy as [|Iy]; [assumption|]. destruct Ix as [->|Ix]; [reflexivity|]. exfalso.
        rewrite Forall_forall in F1, F2. specialize (F1 y Iy). specialize (F2 x Ix). unfold leK in F1, F2.
        assert (key x <> key y). { intros Hk. apply Nx. rewrite Hk. now apply in_map. }
        destruct (st_total lt S _ _ H) as [X|X]; congruence. }
      subst y. f_equal. apply IH; auto. now apply Permutation_cons_inv in P.
  Qed.
  Lemma sort_canonical l1 l2 : Permutation l1 l2 -> NoDup (map key l1) -> sort_by ltA l1 = sort_by ltA l2.
  Proof.
    intros P N. apply sorted_unique; try apply sort_sorted.
    - rewrite sort_by_perm, P. symmetry. apply sort_by_perm.
    - eapply Permutation_NoDup; [apply Permutation_map; symmetry; apply sort_by_perm|exact N].
  Qed.
End Sorted_.

Lemma bltb_strict : strict_total bltb.
Proof.
  constructor.
  - induction a as [|x a IH]; [reflexivity|]. cbn. rewrite IH. lia.
  - induction a as [|x a IH]; intros [|y b] [|z c]; cbn; try easy.
    intros H1 H2. apply orb_prop in H1. apply orb_prop in H2. apply orb_true_iff.
    destruct H1 as [H1|H1]; destruct H2 as [H2|H2]; try (apply andb_prop in H1 as [H1 H1']); try (apply andb_prop in H2 as [H2 H2']);
      rewrite ?andb_true_iff; first [left; lia | right; split; [lia|eauto]].
  - induction a as [|x a IH]; intros [|y b] H; cbn; try (now left); try (now right).
    destruct (Z.lt_trichotomy x y) as [X|[X|X]].
    + left. apply orb_true_iff. left. lia.
    + subst y. destruct (IH b) as [Y|Y]; [congruence| |].
      * left. apply orb_true_iff. right. rewrite Y. lia.
      * right. apply orb_true_iff. right. rewrite Y. lia.
    + right. apply orb_true_iff. left. lia.
Qed.
Lemma zltb_strict : strict_total Z.ltb.
Proof. constructor; intros; lia. Qed.

Section Keyed.
  Context (E : env).
  Hypothesis Hsh : forall site A (l : list A), Permutation (e_shuffle E site A l) l.
  Lemma keyed_perm {A} site sorted lt (l : list A) : Permutation (keyed E site sorted lt l) l.
  Proof. unfold keyed. destruct sorted; [rewrite sort_by_perm|]; apply Hsh. Qed.
  Lemma keyed_in {A} site sorted lt (l : list A) x : In x (keyed E site sorted lt l) <-> In x l.
  Proof. pose proof (keyed_perm site sorted lt l) as P. split; apply Permutation_in; [exact P|now symmetry]. Qed.
End Keyed.

(** ** Templates *)
Section Tpl.
  Context {num : Type}.
  (** [within s t]: s is t or is included in t, directly or not *)
  Inductive within : tpl num -> tpl num -> Prop :=
  | within_self t : within t t
  | within_sub s u t : In u (tpl_subs t) -> within s u -> within s t.

  Fixpoint tsize (t : tpl num) : nat :=
    match t with Tpl _ _ _ _ _ _ _ _ _ subs => S (fold_right (fun u n => tsize u + n)%nat O subs) end.
  Lemma tsize_sub u t : In u (tpl_subs t) -> (tsize u < tsize t)%nat.
  Proof.
    destruct t as [p i cx cy m w h c im subs]. cbn. intros H. induction subs as [|x subs IH]; [destruct H|]. cbn in *.
    destruct H as [->|H]; [lia|]. specialize (IH H). lia.
  Qed.
  Lemma tpl_chain_eq t : tpl_chain t = flat_map (@tpl_chain num) (tpl_subs t) +++ [t].
  Proof. now destruct t. Qed.
  Lemma chain_within_n n : forall t, (tsize t < n)%nat -> forall s, In s (tpl_chain t) <-> within s t.
  Proof.
    induction n as [|n IH]; intros t Hn s; [lia|]. rewrite tpl_chain_eq, in_app_iff, in_flat_map. split.
    - intros [(u & Hu & Hs)|[->|[]]]; [|constructor]. eapply within_sub; [exact Hu|]. apply IH; [|exact Hs]. apply tsize_sub in Hu. lia.
    - intros H. inversion H; subst.
      + right. now left.
      + left. exists u. split; [assumption|]. apply IH; [|assumption]. apply tsize_sub in H0. lia.
  Qed.
  Lemma chain_within t s : In s (tpl_chain t) <-> within s t.
  Proof. apply (chain_within_n (S (tsize t))). lia. Qed.

  (** every included template comes earlier *)
  Definition ordered (l : list (tpl num)) : Prop :=
    forall a t b s, l = a +++ t :: b -> In s (tpl_subs t) -> In s a.
  Lemma ordered_app l1 l2 : ordered l1 -> ordered l2 -> ordered (l1 +++ l2).
  Proof.
    intros H1 H2 a t b s Eq Hs.
    assert (C : (exists c', l1 = a +++ t :: c') \/ (exists a', a = l1 +++ a' /\ l2 = a' +++ t :: b)).
    { clear - Eq. revert a Eq. induction l1 as [|x l1 IH]; intros a Eq; [right; exists a; auto|].
      destruct a as [|y a]; [injection Eq as -> _; left; now exists l1|]. injection Eq as -> Eq.
      destruct (IH a Eq) as [(c' & ->)|(a' & -> & ->)]; [left; now exists c'|right; now exists a']. }
    destruct C as [(c' & ->)|(a' & -> & ->)]; [eapply H1; eauto|]. apply in_or_app. right. eapply H2; eauto.
  Qed.
  Lemma ordered_nil : ordered []. Proof. intros [|? ?] ? ? ? H; discriminate. Qed.
  Lemma ordered_snoc l t : ordered l -> (forall s, In s (tpl_subs t) -> In s l) -> ordered (l +++ [t]).
  Proof.
    intros H Ht a t' b s Eq Hs. destruct b as [|y b].
    - apply app_inj_tail in Eq as [-> ->]. auto.
    - assert (X : exists b', y :: b = b' +++ [t] /\ l = a +++ t' :: b') .
      { assert (exists b' z, y :: b = b' +++ [z]) as (b' & z & Eb) by (destruct (exists_last (l := y :: b)) as (q & z & ->); [discriminate|eauto]).
        rewrite Eb in Eq. exists b'. change (l +++ [t] = a +++ (t' :: b') +++ [z]) in Eq. rewrite app_assoc in Eq. apply app_inj_tail in Eq as [-> <-]. now split. }
      destruct X as (b' & _ & ->). eapply H; eauto.
  Qed.
  Lemma chain_ordered_n n : forall t, (tsize t < n)%nat -> ordered (tpl_chain t).
  Proof.
    induction n as [|n IH]; intros t Hn; [lia|]. rewrite tpl_chain_eq. apply ordered_snoc.
    - assert (G : forall l, (forall u, In u l -> In u (tpl_subs t)) -> ordered (flat_map (@tpl_chain num) l)).
      { induction l as [|u l IHl]; intros Hl; [apply ordered_nil|]. cbn. apply ordered_app.
        - apply IH. pose proof (tsize_sub u t (Hl u (or_introl eq_refl))). lia.
        - apply IHl. intros. apply Hl. now right. }
      now apply G.
    - intros s Hs. apply in_flat_map. exists s. split; [exact Hs|]. apply chain_within. constructor.
  Qed.
  Lemma flat_chain_ordered (l : list (tpl num)) : ordered (flat_map (@tpl_chain num) l).
  Proof.
    induction l as [|t l IH]; [apply ordered_nil|]. cbn. apply ordered_app; [|exact IH]. apply (chain_ordered_n (S (tsize t))). lia.
  Qed.

  (** pointers identify templates *)
  Definition coherent (l : list (tpl num)) : Prop := forall a b, In a l -> In b l -> tpl_ptr a = tpl_ptr b -> a = b.
  Lemma dedup_spec l : forall seen, coherent (seen +++ l) -> NoDup seen -> ordered (seen +++ l) -> ordered seen ->
    (forall t, In t (dedup seen l) <-> In t seen \/ In t l) /\ NoDup (dedup seen l) /\ ordered (dedup seen l).
  Proof.
    induction l as [|t l IH]; intros seen Hc Hn Ho Hs.
    - cbn. split; [intros; tauto|]. now split.
    - cbn [dedup]. destruct (existsb _ seen) eqn:Ex.
      + apply existsb_exists in Ex as (s & Hin & Heq). apply Z.eqb_eq in Heq.
        assert (t = s) by (apply Hc; auto; apply in_or_app; [right; now left|now left]). subst s.
        destruct (IH seen) as (H1 & H2 & H3); auto.
        * intros a b Ha Hb. apply Hc; apply in_app_or in Ha; apply in_app_or in Hb; apply in_or_app; cbn; tauto.
        * intros a u b s Eq Hu.
          assert (C : (exists c', seen = a +++ u :: c') \/ (exists a', a = seen +++ a' /\ l = a' +++ u :: b)).
          { clear - Eq. revert a Eq. induction seen as [|x l1 IH]; intros a Eq; [right; exists a; auto|].
            destruct a as [|y a]; [injection Eq as -> _; left; now exists l1|]. injection Eq as -> Eq.
            destruct (IH a Eq) as [(c' & ->)|(a' & -> & ->)]; [left; now exists c'|right; now exists a']. }
          destruct C as [(c' & ->)|(a' & -> & ->)]; [eapply Hs; eauto|].
          assert (X : In s (seen +++ t :: a')) by (eapply (Ho (seen +++ t :: a') u b); [now rewrite <- app_assoc|exact Hu]).
          apply in_app_or in X. apply in_or_app. destruct X as [X|[->|X]]; auto.
        * split; [|split; assumption]. intros u. rewrite H1. cbn. split; [tauto|]. intros [?|[->|?]]; auto.
      + assert (Nt : ~ In t seen).
        { intros Hin. assert (existsb (fun s => tpl_ptr t =? tpl_ptr s) seen = true); [|congruence]. apply existsb_exists. exists t. split; [exact Hin|lia]. }
        assert (Hsubs : forall s, In s (tpl_subs t) -> In s seen) by (intros s Hu; eapply (Ho seen t l); eauto).
        destruct (IH (seen +++ [t])) as (H1 & H2 & H3).
        * now rewrite <- app_assoc.
        * apply NoDup_app_iff || idtac. clear - Hn Nt. induction seen as [|x s IHs]; cbn; [repeat constructor; easy|].
          inversion Hn; subst. constructor; [|apply IHs; auto; intros ?; apply Nt; now right].
          intros Hin. apply in_app_or in Hin as [?|[->|[]]]; [contradiction|]. apply Nt. now left.
        * now rewrite <- app_assoc.
        * now apply ordered_snoc.
        * split; [|split; assumption]. intros u. rewrite H1, in_app_iff. cbn. tauto.
  Qed.
End Tpl.

Section SortTpls.
  Context {E : env} (d : doc (e_num E)).
  Hypothesis Hsh : forall site A (l : list A), Permutation (e_shuffle E site A l) l.
  Lemma sort_tpls_in t : In t (sort_tpls d) -> exists e, In e (d_tpls d) /\ within t (snd e).
  Proof.
    unfold sort_tpls. intros H.
    assert (G : forall (l seen : list (tpl (e_num E))), In t (dedup seen l) -> In t seen \/ In t l).
    { induction l as [|x l IH]; intros seen Hd; [now left|]. cbn in Hd. destruct (existsb _ _).
      - apply IH in Hd. cbn. tauto.
      - apply IH in Hd. rewrite in_app_iff in Hd. cbn in *. tauto. }
    apply G in H as [[]|H]. apply in_flat_map in H as (e & He & Hc). exists e. split; [|now apply chain_within].
    now apply (keyed_in E Hsh) in He.
  Qed.
  Lemma sort_tpls_spec :
    (forall e1 e2 a b, In e1 (d_tpls d) -> In e2 (d_tpls d) -> within a (snd e1) -> within b (snd e2) -> tpl_ptr a = tpl_ptr b -> a = b) ->
    (forall t, In t (sort_tpls d) <-> exists e, In e (d_tpls d) /\ within t (snd e)) /\ NoDup (sort_tpls d) /\ ordered (sort_tpls d).
  Proof.
    intros Hp. unfold sort_tpls.
    assert (Hin : forall t, In t (flat_map (fun e => tpl_chain (snd e)) (keyed E 8 (d_sort d) (fun a b => by_key a b) (d_tpls d))) <-> exists e, In e (d_tpls d) /\ within t (snd e)).
    { intros t. rewrite in_flat_map. split; intros (e & He & Hc); exists e.
      - apply (keyed_in E Hsh) in He. split; [exact He|now apply chain_within].
      - split; [now apply (keyed_in E Hsh)|now apply chain_within]. }
    destruct (dedup_spec (flat_map (fun e => tpl_chain (snd e)) (keyed E 8 (d_sort d) (fun a b => by_key a b) (d_tpls d))) []) as (H1 & H2 & H3).
    - cbn. intros a b Ha Hb. apply Hin in Ha as (e1 & X1 & Y1). apply Hin in Hb as (e2 & X2 & Y2). eauto.
    - constructor.
    - cbn. pose proof (flat_chain_ordered (map snd (keyed E 8 (d_sort d) (fun a b => by_key a b) (d_tpls d)))) as X.
      rewrite flat_map_concat_map, map_map, <- flat_map_concat_map in X. exact X.
    - apply ordered_nil.
    - split; [|split; assumption]. intros t. rewrite H1, Hin. cbn. tauto.
  Qed.
End SortTpls.
