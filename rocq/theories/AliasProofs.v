(** Alias substitution (C27): specification and proofs about strings.Replace.
    The specification, [replaced], reads a text from left to right: where an
    alias stands, its replacement is written, everything else is copied. *)
From Verif Require Import Base.
From Coq Require Import Permutation Wf_nat.

Inductive replaced (m : list (bytes * bytes)) : bytes -> bytes -> Prop :=
| rep_nil : replaced m [] []
| rep_alias al rp t t' : In (al, rp) m -> replaced m t t' -> replaced m (al ++ t) (rp ++ t')
| rep_copy c t t' : (forall al rp u, In (al, rp) m -> c :: t <> al ++ u) -> replaced m t t' ->
                    replaced m (c :: t) (c :: t').

(** two texts can share a piece when laid over each other *)
Definition meets (u v : bytes) : Prop :=
  (exists x y z, y <> [] /\ u = x ++ y /\ v = y ++ z) \/
  (exists x y z, y <> [] /\ v = x ++ y /\ u = y ++ z) \/
  (exists x z, u = x ++ v ++ z) \/ (exists x z, v = x ++ u ++ z).

(** aliases that do not interfere: none overlaps another alias, nor the replacement of another *)
Definition independent (m : list (bytes * bytes)) : Prop :=
  NoDup (map fst m) /\ (forall al rp, In (al, rp) m -> al <> [] /\ rp <> []) /\
  (forall al rp al' rp', In (al, rp) m -> In (al', rp') m -> al <> al' -> ~ meets al al' /\ ~ meets rp al').

Lemma app_cases {A} (a b c d : list A) : a ++ b = c ++ d ->
  (exists x, a = c ++ x /\ d = x ++ b) \/ (exists x, c = a ++ x /\ b = x ++ d).
Proof.
  revert c. induction a as [|x a IH]; intros c H.
  - right. exists c. now rewrite <- H.
  - destruct c as [|y c]; [left; now exists (x :: a)|]. injection H as -> H.
    destruct (IH c H) as [(z & -> & ->)|(z & -> & ->)]; [left|right]; now exists z.
Qed.

(** one alias: strings.Replace *)
Lemma replace_all_replaced al rp s : al <> [] -> replaced [(al, rp)] s (replace_all al rp s).
Proof.
  intros Hne. remember (length s) as n eqn:Hn. revert s Hn.
  induction n as [n IH] using lt_wf_ind. intros s ->.
  destruct s as [|c t]; [constructor|].
  destruct (prefixb al (c :: t)) eqn:E.
  - apply prefixb_spec in E as (u & E). rewrite E, replace_all_occ by exact Hne.
    apply rep_alias; [now left|]. apply (IH (length u)); [|reflexivity].
    rewrite E, app_length. destruct al; [easy|]. cbn. lia.
  - rewrite replace_all_step by exact E. apply rep_copy.
    + intros a r u [Hin|[]] Hx. injection Hin as <- <-. assert (prefixb al (c :: t) = true) by (apply prefixb_spec; now exists u). congruence.
    + apply (IH (length t)); [cbn; lia|reflexivity].
Qed.

(** a text that meets no alias is copied *)
Lemma replaced_pass m r s s2 :
  (forall al rp, In (al, rp) m -> al <> [] /\ ~ meets r al) ->
  replaced m (r ++ s) s2 -> exists s3, s2 = r ++ s3 /\ replaced m s s3.
Proof.
  intros Hm. assert (G : forall b a s2, r = a ++ b -> replaced m (b ++ s) s2 -> exists s3, s2 = b ++ s3 /\ replaced m s s3).
  { induction b as [|c b IH]; intros a s2' Er H; [now exists s2'|].
    inversion H as [|al rp t t' Hin Ht E1|c' t t' Hno Ht E1].
    - destruct (Hm _ _ Hin) as [Hne Hmt]. exfalso. apply Hmt.
      apply (app_cases _ _ (c :: b)) in E1 as [(x & -> & _)|(x & E1 & _)].
      + left. exists a, (c :: b), x. split; [discriminate|]. split; [exact Er|reflexivity].
      + right. right. left. exists a, x. now rewrite Er, E1.
    - subst. destruct (IH (a ++ [c]) t') as (s3 & -> & H3); [now rewrite <- app_assoc|exact Ht|]. now exists s3. }
  apply (G r []). reflexivity.
Qed.

(** a text that meets neither alias nor replacement stands where it stood *)
Lemma replaced_back al rp b s s1 :
  al <> [] -> rp <> [] -> ~ meets al b -> ~ meets rp b ->
  replaced [(al, rp)] s (b ++ s1) -> exists u, s = b ++ u /\ replaced [(al, rp)] u s1.
Proof.
  intros Ha Hr Mab Mrb.
  assert (G : forall b2 b1 s, b = b1 ++ b2 -> replaced [(al, rp)] s (b2 ++ s1) -> exists u, s = b2 ++ u /\ replaced [(al, rp)] u s1).
  { induction b2 as [|c b2 IH]; intros b1 s0 Eb H; [now exists s0|].
    inversion H as [E0|a r t t' Hin Ht E0 E1|c' t t' Hno Ht E0 E1].
    - destruct Hin as [[= <- <-]|[]]. exfalso. apply Mrb.
      apply (app_cases _ _ (c :: b2)) in E1 as [(x & -> & _)|(x & E1 & _)].
      + right. left. exists b1, (c :: b2), x. split; [discriminate|]. split; [exact Eb|reflexivity].
      + right. right. right. exists b1, x. now rewrite Eb, E1.
    - subst. destruct (IH (b1 ++ [c]) t) as (u & -> & Hu); [now rewrite <- app_assoc|exact Ht|]. now exists u. }
  apply (G b []). reflexivity.
Qed.
Lemma replaced_forth al rp b u s1 :
  al <> [] -> ~ meets al b ->
  replaced [(al, rp)] (b ++ u) s1 -> exists u1, s1 = b ++ u1 /\ replaced [(al, rp)] u u1.
Proof.
  intros Ha Mab H. apply (replaced_pass [(al, rp)] b) in H; [exact H|].
  intros a r [[= <- <-]|[]]. split; [exact Ha|]. intros M. apply Mab.
  destruct M as [(x & y & z & H1 & H2 & H3)|[(x & y & z & H1 & H2 & H3)|[(x & z & H1)|(x & z & H1)]]].
  - right. left. now exists x, y, z.
  - left. now exists x, y, z.
  - right. right. right. now exists x, z.
  - right. right. left. now exists x, z.
Qed.

(** one alias, then the others *)
Lemma replaced_cons al rp m s s1 s2 :
  al <> [] -> rp <> [] ->
  (forall a r, In (a, r) m -> a <> [] /\ ~ meets al a /\ ~ meets rp a) ->
  replaced [(al, rp)] s s1 -> replaced m s1 s2 -> replaced ((al, rp) :: m) s s2.
Proof.
  intros Ha Hr Hm. remember (length s) as n eqn:Hn. revert s Hn s1 s2.
  induction n as [n IH] using lt_wf_ind. intros s -> s1 s2 H1 H2.
  inversion H1 as [E0 E1|a r t t' Hin Ht E0 E1|c t t' Hno Ht E0 E1].
  - subst. inversion H2 as [E2|a r t t' Hin Ht E2|]; subst; [constructor|].
    apply app_eq_nil in E2 as [-> ->]. now destruct (Hm _ _ Hin).
  - destruct Hin as [[= <- <-]|[]]. subst.
    apply replaced_pass in H2 as (s3 & -> & H3).
    2:{ intros a r Hin. destruct (Hm a r Hin) as (X1 & _ & X3). now split. }
    apply rep_alias; [now left|]. eapply (IH (length t)); [|reflexivity|exact Ht|exact H3].
    rewrite app_length. destruct al; [easy|]. cbn. lia.
  - subst. inversion H2 as [|a r u1 u2 Hin Hu E2 E3|c' u1 u2 Hno2 Hu E2 E3].
    + destruct (Hm a r Hin) as (X1 & X2 & X3).
      rewrite <- E2 in H1. destruct (replaced_back al rp a (c :: t) u1 Ha Hr X2 X3 H1) as (u & E & Hu2).
      rewrite E. apply rep_alias; [now right|]. eapply (IH (length u)); [|reflexivity|exact Hu2|exact Hu].
      rewrite E, app_length. destruct a; [easy|]. cbn. lia.
    + subst. apply rep_copy.
      * intros a r u [[= <- <-]|Hin] E; [exact (Hno _ _ _ (or_introl eq_refl) E)|].
        destruct (Hm a r Hin) as (X1 & X2 & X3). rewrite E in H1.
        destruct (replaced_forth al rp a u (c :: t') Ha X2 H1) as (v & Ev & _). exact (Hno2 _ _ _ Hin Ev).
      * eapply (IH (length t)); [cbn; lia|reflexivity|exact Ht|exact Hu].
Qed.

Lemma replaced_none s : replaced [] s s.
Proof. induction s; constructor; [|assumption]. intros ? ? ? []. Qed.
Lemma replaced_same m m' s s' : (forall e, In e m <-> In e m') -> replaced m s s' -> replaced m' s s'.
Proof.
  intros H R. induction R as [|al rp t t' Hin _ IH|c t t' Hno _ IH]; [constructor|apply rep_alias; [now apply H|exact IH]|].
  apply rep_copy; [|exact IH]. intros al rp u Hin. apply (Hno al rp u). now apply H.
Qed.

(** replacing one after the other, in any order *)
Lemma fold_replaced (f : bytes -> bytes * bytes -> bytes) m :
  (forall al rp s, al <> [] -> f s (al, rp) = replace_all al rp s) -> independent m ->
  forall s, replaced m s (fold_left f m s).
Proof.
  intros Hf. induction m as [|[al rp] m IH]; intros I s; [apply replaced_none|].
  destruct I as (ND & NE & AP). cbn [fold_left]. destruct (NE al rp (or_introl eq_refl)) as [Ha Hr].
  rewrite Hf by exact Ha.
  apply (replaced_cons al rp m s (replace_all al rp s)); [exact Ha|exact Hr| |now apply replace_all_replaced|].
  - intros a r Hin. split; [exact (proj1 (NE a r (or_intror Hin)))|]. apply (AP al rp a r); [now left|now right|].
    intros ->. inversion ND as [|? ? X _]. apply X. change a with (fst (a, r)). now apply in_map.
  - apply IH. split; [now inversion ND|]. split; [intros; apply NE; now right|]. intros. apply (AP al0 rp0 al' rp'); [now right|now right|assumption].
Qed.
Lemma independent_perm m m' : Permutation m m' -> independent m -> independent m'.
Proof.
  intros P (ND & NE & AP). pose proof (Permutation_sym P) as Q. split; [|split].
  - eapply Permutation_NoDup; [apply Permutation_map; exact P|exact ND].
  - intros al rp Hin. apply NE. eapply Permutation_in; eauto.
  - intros al rp al' rp' H1 H2. apply (AP al rp al' rp'); eapply Permutation_in; eauto.
Qed.

Lemma keys_fun (m : list (bytes * bytes)) k a b : NoDup (map fst m) -> In (k, a) m -> In (k, b) m -> a = b.
Proof.
  induction m as [|[x y] m IHm]; intros ND H1 H2; [destruct H1|]. inversion ND as [|? ? X Y]; subst.
  destruct H1 as [H1|H1], H2 as [H2|H2].
  - congruence.
  - injection H1 as -> ->. exfalso. apply X. change k with (fst (k, b)). now apply in_map.
  - injection H2 as -> ->. exfalso. apply X. change k with (fst (k, a)). now apply in_map.
  - now apply IHm.
Qed.

(** the specification fixes the result *)
Lemma replaced_unique m : independent m -> forall s a b, replaced m s a -> replaced m s b -> a = b.
Proof.
  intros (ND & NE & AP) s. remember (length s) as n eqn:Hn. revert s Hn.
  induction n as [n IH] using lt_wf_ind. intros s -> a b Ra Rb.
  inversion Ra as [E0 E1|al rp t t' Hin Ht E0 E1|c t t' Hno Ht E0 E1]; subst.
  - inversion Rb as [|al rp t t' Hin Ht E0|]; subst; [reflexivity|].
    apply app_eq_nil in E0 as [-> ->]. now destruct (NE _ _ Hin).
  - destruct (NE _ _ Hin) as [Ha Hr].
    assert (Hl : (length t < length (al ++ t))%nat) by (rewrite app_length; destruct al; [easy|cbn; lia]).
    inversion Rb as [E0 E1|al' rp' u u' Hin' Hu E0 E1|c u u' Hno Hu E0 E1]; subst.
    + symmetry in E0. apply app_eq_nil in E0 as [-> _]. easy.
    + destruct (list_eq_dec Z.eq_dec al al') as [<-|Hd].
      * apply app_inv_head in E0 as ->.
        assert (rp' = rp) as ->.
        { exact (keys_fun m al rp' rp ND Hin' Hin). }
        f_equal. eapply IH; [exact Hl|reflexivity|exact Ht|exact Hu].
      * exfalso. destruct (AP _ _ _ _ Hin' Hin) as [X _]; [congruence|]. apply X.
        apply app_cases in E0 as [(x & -> & _)|(x & -> & _)].
        -- right. right. left. now exists [], x.
        -- right. right. right. now exists [], x.
    + exfalso. exact (Hno _ _ _ Hin (eq_sym E0) ) || exact (Hno _ _ _ Hin E0).
  - inversion Rb as [|al rp u u' Hin Hu E0 E1|c' u u' Hno' Hu E0 E1]; subst.
    + exfalso. exact (Hno _ _ _ Hin (eq_sym E0)) || exact (Hno _ _ _ Hin E0).
    + f_equal. eapply IH; [|reflexivity|exact Ht|exact Hu]. cbn. lia.
Qed.
