(** getSymbols collects the glyphs needed, each once, with its number. *)
From Verif Require Import Base DocModel TtfSpec TtfModel TtfProofs CutSpec CutModel CutProofs.
From Coq Require Import String Permutation.
Open Scope Z_scope.
Notation length := List.length.

(** the numbers in the map are the places in the list *)
Record numbered (y : symbols) : Prop := {
  nb_nodup : NoDup (y_keys y);
  nb_count : length (y_coll y) = length (y_keys y);
  nb_index : forall g i, index_of (y_set y) g = Some i <-> 0 <= i /\ nth_error (y_keys y) (Z.to_nat i) = Some g }.

Lemma numbered_in y g : numbered y -> In g (y_keys y) <-> exists i, index_of (y_set y) g = Some i.
Proof.
  intros N. split.
  - intros H. apply In_nth_error in H as (n & H). exists (Z.of_nat n). apply (nb_index y N). split; [lia|]. now rewrite Nat2Z.id.
  - intros (i & H). apply (nb_index y N) in H as (_ & H). eapply nth_error_In, H.
Qed.
Lemma add_symbol_numbered g y : numbered y -> numbered (add_symbol g y) /\ In g (y_keys (add_symbol g y)) /\
  exists new, y_keys (add_symbol g y) = y_keys y ++ new /\ forall h, In h new -> h = g.
Proof.
  intros N. unfold add_symbol. destruct (index_of (y_set y) g) as [i|] eqn:E.
  - split; [exact N|]. split; [apply numbered_in; eauto|]. exists []. rewrite app_nil_r. split; [reflexivity|]. intros h [].
  - assert (Hn : ~ In g (y_keys y)). { intros H. apply (numbered_in y g N) in H as (i & H). congruence. }
    split; [|split; [cbn; apply in_or_app; right; now left|exists [g]; split; [reflexivity|intros h [<-|[]]; reflexivity]]].
    constructor; cbn [y_keys y_coll y_set].
    + eapply Permutation_NoDup; [apply Permutation_cons_append|]. constructor; [exact Hn|apply N].
    + rewrite app_length. cbn [length]. rewrite (nb_count y N). lia.
    + intros h i. unfold index_of. cbn [find fst]. destruct (g =? h) eqn:Eg.
      * apply Z.eqb_eq in Eg. subst h. cbn [option_map snd]. rewrite (nb_count y N). split.
        -- intros H. injection H as <-. split; [lia|]. rewrite Nat2Z.id, nth_error_app2, Nat.sub_diag by lia. reflexivity.
        -- intros [Hi H]. destruct (Nat.lt_ge_cases (Z.to_nat i) (length (y_keys y))) as [L|L].
           ++ rewrite nth_error_app1 in H by exact L. apply nth_error_In in H. contradiction.
           ++ assert (L2 : (Z.to_nat i < length (y_keys y ++ [g]))%nat) by (apply nth_error_Some; congruence).
              rewrite app_length in L2. cbn [length] in L2. f_equal. lia.
      * apply Z.eqb_neq in Eg. change (option_map snd (find (fun p => fst p =? h) (y_set y))) with (index_of (y_set y) h). rewrite (nb_index y N). split.
        -- intros [Hi H]. split; [exact Hi|]. rewrite nth_error_app1; [exact H|]. apply nth_error_Some. congruence.
        -- intros [Hi H]. split; [exact Hi|]. destruct (Nat.lt_ge_cases (Z.to_nat i) (length (y_keys y))) as [L|L]; [now rewrite nth_error_app1 in H|].
           rewrite nth_error_app2 in H by exact L. destruct (Z.to_nat i - length (y_keys y))%nat as [|[|k]]; cbn in H; congruence.
Qed.

Section Closure.
  Variables (f : bytes) (locs : list Z) (begin : Z).
  Hypothesis Hf : Forall is_byte f.
  Let get_s fuel := get_symbols fuel f locs begin.
  Let get_c fuel := get_components fuel f locs begin.

  (** the glyphs of the components from place [p] of the file on *)
  Inductive parts : Z -> list Z -> Prop :=
  | parts_last p : 0 <= p -> p + 4 <= len f -> Z.testbit (u16 f p) 5 = false -> parts p [u16 f (p + 2)]
  | parts_more p l : 0 <= p -> p + 4 <= len f -> Z.testbit (u16 f p) 5 = true -> parts (p + component_size (u16 f p)) l -> parts p (u16 f (p + 2) :: l).
  Lemma parts_det p l : parts p l -> forall l', parts p l' -> l = l'.
  Proof. induction 1 as [p H0 H1 H2|p l H0 H1 H2 H IH]; intros l' H'; inversion H'; subst; try congruence. f_equal. auto. Qed.

  Definition fcomp (g p : Z) : Prop := exists q, loc locs g = Ret p /\ loc locs (g + 1) = Ret q /\ q <> p /\ 32768 <= u16 f (begin + p).
  Definition fuses (g h : Z) : Prop := exists p l, fcomp g p /\ parts (begin + p + 10) l /\ In h l.
  Inductive reach : Z -> Z -> Prop :=
  | reach_refl g : reach g g
  | reach_step g h k : fuses g h -> reach h k -> reach g k.
  Lemma reach_trans g h k : reach g h -> reach h k -> reach g k.
  Proof. induction 1; eauto using reach. Qed.

  Lemma closure fuel :
    (forall g y y', get_s fuel g y = Ret y' -> numbered y -> In g (y_keys y) ->
       numbered y' /\ (exists new, y_keys y' = y_keys y ++ new /\ forall h, In h new -> reach g h) /\ forall h, reach g h -> In h (y_keys y')) /\
    (forall p y y', get_c fuel p y = Ret y' -> numbered y ->
       exists l, parts p l /\ numbered y' /\ (exists new, y_keys y' = y_keys y ++ new /\ forall h, In h new -> exists c, In c l /\ reach c h) /\
         forall c h, In c l -> reach c h -> In h (y_keys y')).
  Proof.
    unfold get_s, get_c. induction fuel as [|fuel [IHs IHc]]; [split; intros; discriminate|]. split.
    - intros g y y' H N Hg. cbn [get_symbols] in H. obr H. obr H. rename v into p, v0 into q.
      destruct (q - p =? 0) eqn:Eq0.
      + injection H as <-. split; [exact N|]. split; [exists []; rewrite app_nil_r; split; [reflexivity|intros h []]|].
        intros h Hr. inversion Hr as [|? c ? (p' & l & (q' & L1 & L2 & L3 & _) & _)]; [now subst|]. subst. rewrite E in L1. injection L1 as <-. rewrite E0 in L2. injection L2 as <-. lia.
      + obr H. apply rdi16_ret in E1 as (B1 & B2 & ->); [|exact Hf].
        destruct ((if u16 f (begin + p) <? 32768 then u16 f (begin + p) else u16 f (begin + p) - 65536) <? 0) eqn:Ec.
        * destruct (IHc _ _ _ H N) as (l & P & N' & (new & K & R) & A).
          assert (FC : fcomp g p). { exists q. split; [exact E|]. split; [exact E0|]. split; [lia|]. destruct (u16 f (begin + p) <? 32768) eqn:X; [pose proof (u16_range f (begin + p) Hf); lia|lia]. }
          split; [exact N'|]. split.
          -- exists new. split; [exact K|]. intros h Hh. destruct (R h Hh) as (c & Hc & Hr). eapply reach_step; [|exact Hr]. exists p, l. auto.
          -- intros h Hr. inversion Hr as [|? c ? (p' & l' & (q' & L1 & L2 & L3 & L4) & P' & Hc) Hr']; subst.
             ++ rewrite K. apply in_or_app. now left.
             ++ rewrite E in L1. injection L1 as <-. rewrite (parts_det _ _ P' _ P) in Hc. eapply A; eauto.
        * injection H as <-. split; [exact N|]. split; [exists []; rewrite app_nil_r; split; [reflexivity|intros h []]|].
          intros h Hr. inversion Hr as [|? c ? (p' & l' & (q' & L1 & L2 & L3 & L4) & P' & Hc) Hr']; [now subst|]. subst. rewrite E in L1. injection L1 as <-.
          pose proof (u16_range f (begin + p) Hf). destruct (u16 f (begin + p) <? 32768) eqn:X; lia.
    - intros p y y' H N. cbn [get_components] in H. obr H. apply rd16_ret in E as (B0 & B1 & ->). obr H. apply rd16_ret in E as (B2 & B3 & ->). obr H. rename v into y1.
      destruct (add_symbol_numbered (u16 f (p + 2)) y N) as (N0 & I0 & new0 & K0 & R0).
      destruct (IHs _ _ _ E N0 I0) as (N1 & (new1 & K1 & R1) & A1).
      rewrite flag32 in H. rewrite <- Z.add_assoc, after_component_size in H. destruct (Z.testbit (u16 f p) 5) eqn:T.
      + destruct (IHc _ _ _ H N1) as (l & P & N2 & (new2 & K2 & R2) & A2). exists (u16 f (p + 2) :: l).
        split; [constructor; auto; lia|]. split; [exact N2|]. split.
        * exists (new0 ++ new1 ++ new2). split; [rewrite K2, K1, K0, <- !app_assoc; reflexivity|]. intros h Hh.
          apply in_app_or in Hh as [Hh|Hh]; [rewrite (R0 h Hh); eexists; split; [now left|constructor]|].
          apply in_app_or in Hh as [Hh|Hh]; [eexists; split; [now left|now apply R1]|]. destruct (R2 h Hh) as (c & Hc & Hr). exists c. split; [now right|exact Hr].
        * intros c h [<-|Hc] Hr; [|eapply A2; eauto]. rewrite K2. apply in_or_app. left. now apply A1.
      + injection H as <-. exists [u16 f (p + 2)]. split; [constructor; auto; lia|]. split; [exact N1|]. split.
        * exists (new0 ++ new1). split; [rewrite K1, K0, <- !app_assoc; reflexivity|]. intros h Hh.
          apply in_app_or in Hh as [Hh|Hh]; [rewrite (R0 h Hh); eexists; split; [now left|constructor]|]. eexists; split; [now left|now apply R1].
        * intros c h [<-|[]] Hr. now apply A1.
  Qed.

  Lemma get_all_closed fuel l : forall y y', get_all fuel f locs begin l y = Ret y' -> numbered y -> incl l (y_keys y) ->
    numbered y' /\ (exists new, y_keys y' = y_keys y ++ new /\ forall h, In h new -> exists g, In g l /\ reach g h) /\
    forall g h, In g l -> reach g h -> In h (y_keys y').
  Proof.
    induction l as [|g l IH]; intros y y' H N I; cbn [get_all] in H.
    - injection H as <-. split; [exact N|]. split; [exists []; rewrite app_nil_r; split; [reflexivity|intros h []]|]. intros g h [].
    - obr H. destruct (proj1 (closure fuel) _ _ _ E N (I g (or_introl eq_refl))) as (N1 & (new1 & K1 & R1) & A1).
      destruct (IH _ _ H N1) as (N2 & (new2 & K2 & R2) & A2).
      { intros x Hx. rewrite K1. apply in_or_app. left. apply I. now right. }
      split; [exact N2|]. split.
      + exists (new1 ++ new2). split; [rewrite K2, K1, app_assoc; reflexivity|]. intros h Hh. apply in_app_or in Hh as [Hh|Hh].
        * exists g. split; [now left|auto].
        * destruct (R2 h Hh) as (c & Hc & Hr). exists c. split; [now right|exact Hr].
      + intros c h [<-|Hc] Hr; [|eapply A2; eauto]. rewrite K2. apply in_or_app. left. now apply A1.
  Qed.
End Closure.
