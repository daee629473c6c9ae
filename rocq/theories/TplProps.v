(** C51: pages of a template and registration of the templates it uses. *)
From Coq Require Import String Permutation.
From Verif Require Import Base Crypto DocModel DocSort DocProofs TplModel.
Local Open Scope list_scope.
Open Scope Z_scope.
Notation length := List.length.

Arguments AddPage {num data}. Arguments SetPage {num data}. Arguments Draw {num data}. Arguments AddImage {num data}. Arguments Use {num data}. Arguments Tm {num data}.
Set Implicit Arguments.
Unset Strict Implicit.
Section Spec.
  Variables (num data : Type) (sha1hex : bytes -> bytes).
  Notation tmpl := (tmpl num data). Notation call := (call num data).
  Definition id_of (t : tmpl) : bytes := match t_id sha1hex t with Ret i => i | _ => [] end.
  (** What the calls draw on page k, when page [cur] of [count] pages is current:
      AddPage goes on with a new last page, SetPage n with page n if it exists; after
      an error there are no new pages. *)
  Fixpoint drawn (k cur count : Z) (err : bool) (l : list call) : bytes :=
    match l with
    | [] => []
    | AddPage footer b :: l =>
        if err then drawn k cur count err l
        else (if k =? count then footer else []) ++ (if k =? count + 1 then b else []) ++ drawn k (count + 1) (count + 1) err l
    | SetPage n :: l => drawn k (if (1 <=? n) && (n <=? count) then n else cur) count err l
    | Draw b :: l => (if k =? cur then b else []) ++ drawn k cur count err l
    | AddImage _ _ :: l => drawn k cur count err l
    | Use None _ :: l => drawn k cur count true l
    | Use (Some t) place :: l => (if k =? cur then place ++ bs "/TPL" ++ id_of t ++ bs " Do Q" ++ nl else []) ++ drawn k cur count err l
    end.
  (** how many pages there are, and which one is current, after the calls *)
  Fixpoint page_count (count : Z) (err : bool) (l : list call) : Z :=
    match l with
    | [] => count
    | AddPage _ _ :: l => page_count (if err then count else count + 1) err l
    | Use None _ :: l => page_count count true l
    | _ :: l => page_count count err l
    end.
  Fixpoint page_after (cur count : Z) (err : bool) (l : list call) : Z :=
    match l with
    | [] => cur
    | AddPage _ _ :: l => if err then page_after cur count err l else page_after (count + 1) (count + 1) err l
    | SetPage n :: l => page_after (if (1 <=? n) && (n <=? count) then n else cur) count err l
    | Use None _ :: l => page_after cur count true l
    | _ :: l => page_after cur count err l
    end.
End Spec.

Lemma at_nth {A} (l : list A) i : 0 <= i -> at_ l i = nth_error l (Z.to_nat i).
Proof. intros H. unfold at_. destruct (i <? 0) eqn:E; [lia|]. rewrite ?lookup_nth_error. reflexivity. Qed.

Unset Implicit Arguments.
Section Emit.
  Variables (num data : Type).
  Notation tdoc := (tdoc num data).
  (** state of the pages: [count] pages, page [c_page] is current *)
  Definition good (c : tdoc) : Prop := 1 <= c_page c /\ c_page c < zlen (c_pages c).
  Lemma emit_spec b (c c' : tdoc) : good c -> emit b c = Ret c' ->
    c_page c' = c_page c /\ c_tpls c' = c_tpls c /\ c_imgs c' = c_imgs c /\ c_err c' = c_err c /\ zlen (c_pages c') = zlen (c_pages c) /\
    forall k old, 0 <= k -> at_ (c_pages c) k = Some old -> at_ (c_pages c') k = Some (old ++ if k =? c_page c then b else []).
  Proof.
    intros [G1 G2] H. unfold emit in H. destruct (c_page c <=? 0) eqn:E0; [lia|]. destruct (at_ (c_pages c) (c_page c)) as [o|] eqn:Eo; [|discriminate H]. injection H as <-. cbn.
    split; [reflexivity|]. split; [reflexivity|]. split; [reflexivity|]. split; [reflexivity|]. split; [unfold zlen; now rewrite set_nth_length|].
    intros k old Hk Ho. rewrite at_nth in * by lia. unfold zlen in G2. destruct (Z.eqb_spec k (c_page c)) as [->|N].
    - rewrite nth_set_nth_same by lia. rewrite Eo in Ho. injection Ho as ->. reflexivity.
    - rewrite nth_set_nth_other by lia. rewrite Ho. now rewrite app_nil_r.
  Qed.
  Lemma emit_ok b (c : tdoc) : good c -> exists c', emit b c = Ret c'.
  Proof.
    intros [G1 G2]. unfold emit. destruct (c_page c <=? 0) eqn:E0; [lia|]. rewrite at_nth by lia. unfold zlen in G2. destruct (nth_error (c_pages c) (Z.to_nat (c_page c))) eqn:E; [eauto|]. apply nth_error_None in E. lia.
  Qed.
End Emit.
Section Proofs.
  Variables (num data : Type) (sha1hex : bytes -> bytes).
  Variable shuffle : list (bytes * img data) -> list (bytes * img data).
  Notation tmpl := (tmpl num data). Notation call := (call num data). Notation tdoc := (tdoc num data).
  Notation run := (run (num := num) sha1hex shuffle). Notation step := (step (num := num) sha1hex shuffle). Notation use := (use (num := num) sha1hex shuffle).
  Notation drawn := (drawn (num := num) (data := data) sha1hex).
  Notation good := (good num data).
  Lemma use_spec t place (c c' : tdoc) : good c -> use t place c = Ret c' ->
    c_page c' = c_page c /\ c_err c' = c_err c /\ zlen (c_pages c') = zlen (c_pages c) /\
    forall k old, 0 <= k -> at_ (c_pages c) k = Some old -> at_ (c_pages c') k = Some (old ++ if k =? c_page c then place ++ bs "/TPL" ++ id_of sha1hex t ++ bs " Do Q" ++ nl else []).
  Proof.
    intros G H. unfold TplModel.use in H. destruct (c_page c <=? 0) eqn:E0; [destruct G; lia|]. unfold id_of. destruct (t_id sha1hex t) as [id| |]; try discriminate H. cbn [obind] in H.
    match type of H with obind ?m _ = _ => destruct m as [tp| |]; try discriminate H end. cbn [obind] in H.
    match type of H with emit _ ?c0 = _ => assert (G' : good c0) by exact G end. destruct (emit_spec _ _ _ _ _ G' H) as (A & _ & _ & D & F & K). now split.
  Qed.
  Lemma run_drawn : forall l (c c' : tdoc), good c -> run l c = Ret c' ->
    let count := zlen (c_pages c) - 1 in
    good c' /\ zlen (c_pages c') - 1 = page_count count (c_err c) l /\ c_page c' = page_after (c_page c) count (c_err c) l /\
    (forall k old, 1 <= k -> at_ (c_pages c) k = Some old -> at_ (c_pages c') k = Some (old ++ drawn k (c_page c) count (c_err c) l)) /\
    (forall k, count < k -> k < zlen (c_pages c') -> at_ (c_pages c') k = Some (drawn k (c_page c) count (c_err c) l)).
  Proof.
    induction l as [|x l IH]; intros c c' G H count.
    - injection H as <-. cbn. split; [exact G|]. split; [reflexivity|]. split; [reflexivity|]. split; [intros; now rewrite app_nil_r|]. intros k H1 H2. unfold count in H1. lia.
    - cbn [TplModel.run] in H. destruct (step x c) as [d| |] eqn:Ex; try discriminate H. cbn [obind] in H.
      assert (Gen : forall count', zlen (c_pages d) - 1 = count' -> good d -> 
         (forall k old, 1 <= k -> at_ (c_pages d) k = Some old -> at_ (c_pages c') k = Some (old ++ drawn k (c_page d) count' (c_err d) l)) /\
         (forall k, count' < k -> k < zlen (c_pages c') -> at_ (c_pages c') k = Some (drawn k (c_page d) count' (c_err d) l)) /\
         good c' /\ zlen (c_pages c') - 1 = page_count count' (c_err d) l /\ c_page c' = page_after (c_page d) count' (c_err d) l).
      { intros count' <- Gd. destruct (IH d c' Gd H) as (A & B & C & D & F). exact (conj D (conj F (conj A (conj B C)))). }
      destruct x as [footer b|n|b|name im|[t|] place]; cbn [TplModel.step] in Ex.
      + cbn [TplProps.drawn page_count page_after]. destruct (c_err c) eqn:Ee.
        * injection Ex as <-. destruct (Gen count eq_refl G) as (D & F & A & B & C). rewrite Ee in *. exact (conj A (conj B (conj C (conj D F)))).
        * match type of Ex with obind (emit footer ?c0) _ = _ => set (c1 := c0) in Ex end. 
          assert (G1 : good c1) by (destruct G; unfold good, c1; cbn; lia). destruct (emit footer c1) as [c2| |] eqn:E1; try discriminate Ex. cbn [obind] in Ex.
          destruct (emit_spec _ _ _ _ _ G1 E1) as (P2 & _ & _ & Er2 & L2 & K2). cbn in P2, Er2, L2.
          match type of Ex with emit b ?c0 = _ => set (c3 := c0) in Ex end.
          assert (L3 : zlen (c_pages c3) = zlen (c_pages c) + 1) by (unfold c3; cbn; unfold zlen in *; rewrite app_length; cbn; lia).
          assert (G3 : good c3) by (destruct G; unfold good; rewrite L3; unfold c3; cbn; lia).
          destruct (emit_spec _ _ _ _ _ G3 Ex) as (P4 & _ & _ & Er4 & L4 & K4). cbn in P4, Er4. rewrite L3 in L4.
          assert (Gd : good d) by (destruct G; unfold good; rewrite P4, L4; lia).
          destruct (Gen (count + 1) ltac:(unfold count; lia) Gd) as (D & F & A & B & C).
          assert (Pd : c_page d = count + 1) by (rewrite P4; unfold count; lia). rewrite Pd in D, F, C. assert (Erd : c_err d = false) by congruence; rewrite Erd in D, F, B, C.
          split; [exact A|]. split; [exact B|]. split; [exact C|].
          assert (K : forall k old, 1 <= k -> at_ (c_pages c3) k = Some old -> at_ (c_pages d) k = Some (old ++ if k =? count + 1 then b else [])).
          { intros k old Hk Ho. rewrite (K4 k old ltac:(lia) Ho). unfold c3. cbn. unfold count. now replace (zlen (c_pages c) - 1 + 1) with (zlen (c_pages c) - 1 + 1) by lia. }
          split.
          { intros k old Hk Ho. assert (Hl : k < zlen (c_pages c)) by (rewrite at_nth in Ho by lia; unfold zlen; assert (nth_error (c_pages c) (Z.to_nat k) <> None) by congruence; apply nth_error_Some in H0; lia).
            assert (H3 : at_ (c_pages c3) k = Some (old ++ if k =? count then footer else [])).
            { pose proof (K2 k old ltac:(lia) Ho) as Q. cbn in Q. fold count in Q. unfold c3. cbn. rewrite at_nth in * by lia. unfold zlen in *. rewrite nth_error_app1 by lia. exact Q. }
            rewrite (D k _ Hk (K k _ Hk H3)). now rewrite <- !app_assoc. }
          { intros k Hk Hl. destruct (Z.eq_dec k (count + 1)) as [->|N].
            - assert (H3 : at_ (c_pages c3) (count + 1) = Some []).
              { unfold c3. cbn. unfold count in *. destruct G. rewrite at_nth by lia. unfold zlen in *. rewrite nth_error_app2 by lia. replace (Z.to_nat _ - _)%nat with 0%nat by lia. reflexivity. }
              assert (1 <= count + 1) by (destruct G; unfold count; lia). rewrite (D _ _ H0 (K _ _ H0 H3)). destruct (Z.eqb_spec (count + 1) count); [lia|]. rewrite Z.eqb_refl. reflexivity.
            - rewrite (F k ltac:(lia) Hl). destruct (Z.eqb_spec k count); [lia|]. destruct (Z.eqb_spec k (count + 1)); [lia|]. reflexivity. }
      + injection Ex as <-. cbn [TplProps.drawn page_count page_after].
        replace ((0 <? n) && (n <? zlen (c_pages c))) with ((1 <=? n) && (n <=? count)) in * by (unfold count; f_equal; lia).
        destruct ((1 <=? n) && (n <=? count)) eqn:En; [|destruct (Gen count eq_refl G) as (D & F & A & B & C); exact (conj A (conj B (conj C (conj D F))))].
        destruct (Gen count eq_refl) as (D & F & A & B & C); [unfold good, count in *; cbn; lia|]. cbn in D, F, A, B, C. exact (conj A (conj B (conj C (conj D F)))).
      + destruct (emit_spec _ _ _ _ _ G Ex) as (P & _ & _ & Er & L & K). assert (Gd : good d) by (destruct G; unfold good; rewrite P, L; lia).
        destruct (Gen count ltac:(unfold count; lia) Gd) as (D & F & A & B & C). rewrite P, Er in *. cbn [TplProps.drawn page_count page_after]. split; [exact A|]. split; [exact B|]. split; [exact C|].
        split; [intros k old Hk Ho; rewrite (D k _ Hk (K k old ltac:(lia) Ho)); now rewrite <- app_assoc|]. intros k Hk Hl. rewrite (F k Hk Hl). destruct (Z.eqb_spec k (c_page c)); [destruct G; unfold count in *; lia|]. reflexivity.
      + injection Ex as <-. cbn [TplProps.drawn page_count page_after]. destruct (c_err c) eqn:Ee; [|destruct (get name (c_imgs c)) eqn:Eg].
        * destruct (Gen count eq_refl G) as (D & F & A & B & C). rewrite Ee in *. exact (conj A (conj B (conj C (conj D F)))).
        * destruct (Gen count eq_refl G) as (D & F & A & B & C). rewrite Ee in *. exact (conj A (conj B (conj C (conj D F)))).
        * destruct (Gen count eq_refl G) as (D & F & A & B & C). cbn in D, F, A, B, C. rewrite ?Ee in *. exact (conj A (conj B (conj C (conj D F)))).
      + destruct (use_spec _ _ _ _ G Ex) as (P & Er & L & K). assert (Gd : good d) by (destruct G; unfold good; rewrite P, L; lia).
        destruct (Gen count ltac:(unfold count; lia) Gd) as (D & F & A & B & C). rewrite P, Er in *. cbn [TplProps.drawn page_count page_after]. split; [exact A|]. split; [exact B|]. split; [exact C|].
        split; [intros k old Hk Ho; rewrite (D k _ Hk (K k old ltac:(lia) Ho)); now rewrite <- app_assoc|]. intros k Hk Hl. rewrite (F k Hk Hl). destruct (Z.eqb_spec k (c_page c)); [destruct G; unfold count in *; lia|]. reflexivity.
      + injection Ex as <-. cbn [TplProps.drawn page_count page_after]. destruct (Gen count eq_refl G) as (D & F & A & B & C). cbn in D, F, A, B, C. exact (conj A (conj B (conj C (conj D F)))).
  Qed.
End Proofs.

(** ** C51: pages *)
Lemma from_page_spec num data (t : tmpl num data) k : 1 <= k <= num_pages t -> exists t', from_page t k = Some t' /\
  t_page t' = k /\ t_pages t' = t_pages t /\ t_size t' = t_size t /\ t_images t' = t_images t /\ t_subs t' = t_subs t.
Proof.
  intros H. unfold from_page. destruct (k =? 0) eqn:E0; [lia|]. destruct (num_pages t <? k) eqn:E1; [lia|]. destruct t as [c s p i u q]. cbn [t_page]. destruct (Z.eqb_spec q k) as [->|N]; eexists; (split; [reflexivity|]); repeat split.
Qed.
(** The template has a page for every page added; FromPage k gives page k, with what
    was drawn on it, and no page there is an error; FromPages lists them in order.
    The template itself shows the page that was current at the end. *)
Theorem C51_pages_partial : forall (num data : Type) (sha1hex : bytes -> bytes) shuffle corner size (imgs : list (bytes * img data)) begin (l : list (call num data)) t,
  new_tpl sha1hex shuffle corner size imgs begin l = Ret t ->
  let page k := drawn sha1hex k 0 0 false (AddPage [] begin :: l) in
  let count := page_count 0 false (AddPage [] begin :: l) in
  num_pages t = count /\ t_size t = (corner, size) /\
  t_bytes t = Ret (page (page_after 0 0 false (AddPage [] begin :: l))) /\
  (forall k, 1 <= k <= count -> exists t', from_page t k = Some t' /\ nth_error (from_pages t) (Z.to_nat (k - 1)) = Some (Some t') /\
     t_bytes t' = Ret (page k) /\ num_pages t' = count /\ t_size t' = t_size t /\ t_images t' = t_images t /\ t_subs t' = t_subs t) /\
  Z.of_nat (length (from_pages t)) = count /\
  from_page t 0 = None /\ (forall k, count < k -> from_page t k = None).
Proof.
  intros num data sha1hex shuffle corner size imgs begin l t H page count. unfold new_tpl in H.
  destruct (run sha1hex shuffle (AddPage [] begin :: l) (tpl_start num imgs)) as [c| |] eqn:Er; try discriminate H. cbn [obind] in H. injection H as <-.
  cbn [run] in Er. destruct (step sha1hex shuffle (AddPage [] begin) (tpl_start num imgs)) as [c1| |] eqn:E1; try discriminate Er. cbn [obind] in Er.
  cbn in E1. injection E1 as <-.
  match type of Er with run _ _ _ ?c0 = _ => assert (G : good num data c0) by (unfold good; cbn; lia) end.
  destruct (run_drawn num data sha1hex shuffle l _ _ G Er) as (Gc & Hn & Hp & Hk & Hk2). cbn [c_pages c_page c_err] in *.
  change (zlen [[]; begin] - 1) with 1 in *.
  assert (P1 : forall k, 1 <= k < zlen (c_pages c) -> at_ (c_pages c) k = Some (page k)).
  { intros k K. unfold page. cbn [drawn]. destruct (Z.eq_dec k 1) as [->|N].
    - rewrite (Hk 1 begin ltac:(lia) eq_refl). reflexivity.
    - rewrite (Hk2 k ltac:(lia) ltac:(lia)). destruct (Z.eqb_spec k 0); [lia|]. destruct (Z.eqb_spec k (0 + 1)); [lia|]. reflexivity. }
  assert (Cn : num_pages (Tm corner size (c_pages c) (c_imgs c) (map snd (sort_by by_key (c_tpls c))) (c_page c)) = count) by (unfold num_pages, count; cbn [t_pages page_count]; change (0 + 1) with 1; lia).
  set (t := Tm corner size (c_pages c) (c_imgs c) (map snd (sort_by by_key (c_tpls c))) (c_page c)) in *.
  assert (Cz : zlen (c_pages c) = count + 1) by (unfold num_pages in Cn; cbn [t t_pages] in Cn; lia).
  split; [exact Cn|]. split; [reflexivity|]. split.
  { unfold t_bytes, t. cbn [t_pages t_page]. rewrite (P1 (c_page c) Gc). cbn [page_after]. f_equal. f_equal. exact Hp. }
  split.
  { intros k K. destruct (from_page_spec _ _ t k ltac:(lia)) as (t' & F & Ft & Fp & Fs & Fi & Fu). exists t'. split; [exact F|]. split.
    { unfold from_pages. rewrite (map_nth_error _ (Z.to_nat (k - 1)) _ (d := Z.to_nat k)); [rewrite Z2Nat.id by lia; now rewrite F|].
      replace (Z.to_nat k) with (1 + Z.to_nat (k - 1))%nat by lia. rewrite Cn. rewrite (nth_error_nth' _ 0%nat) by (rewrite seq_length; lia). now rewrite seq_nth by lia. }
    unfold t_bytes, num_pages. rewrite Ft, Fp. fold (num_pages t). cbn [t t_pages]. rewrite P1 by lia. repeat split; try assumption. }
  split; [unfold from_pages; rewrite map_length, seq_length, Cn; assert (0 <= count) by (pose proof Gc as [? ?]; lia); lia|].
  split; [reflexivity|]. intros k K. unfold from_page. destruct (k =? 0) eqn:E0; [reflexivity|]. rewrite Cn. destruct (count <? k) eqn:E2; [reflexivity|lia].
Qed.
Print Assumptions C51_pages_partial.
(** A negative page is no error: the template returned has a page that is not
    there, and using it crashes the program. *)
Theorem C51_negative_refuted : forall (num data : Type) (sha1hex : bytes -> bytes) shuffle corner size (imgs : list (bytes * img data)) begin (l : list (call num data)) t k,
  new_tpl sha1hex shuffle corner size imgs begin l = Ret t -> k < 0 ->
  exists t', from_page t k = Some t' /\ t_bytes t' = Panic /\ t_id sha1hex t' = Panic /\
  forall c place, 1 <= c_page c -> use sha1hex shuffle t' place c = Panic.
Proof.
  intros num data sha1hex shuffle corner size imgs begin l t k H Hk. destruct (C51_pages_partial num data sha1hex shuffle corner size imgs begin l t H) as (N & _ & B & P & L & _).
  unfold from_page. destruct (k =? 0) eqn:E0; [lia|]. destruct (num_pages t <? k) eqn:E1; [lia|]. destruct t as [c0 s p i u q]. cbn [t_page] in *.
  assert (Hq : q <> k). { intros ->. unfold t_bytes in B. cbn in B. unfold at_ in B. destruct (k <? 0) eqn:E; [discriminate B|lia]. }
  destruct (Z.eqb_spec q k); [contradiction|]. eexists. split; [reflexivity|].
  assert (X : t_bytes (Tm c0 s p i u k) = Panic) by (unfold t_bytes; cbn; unfold at_; destruct (k <? 0) eqn:E; [reflexivity|lia]).
  assert (Y : t_id sha1hex (Tm c0 s p i u k) = Panic) by (unfold t_id; rewrite X; reflexivity). split; [exact X|]. split; [exact Y|].
  intros c place Hc. unfold use. destruct (c_page c <=? 0) eqn:E; [lia|]. rewrite Y. reflexivity.
Qed.
Print Assumptions C51_negative_refuted.

(** ** C51: registration *)
Section Made.
  Variables (num data : Type) (sha1hex : bytes -> bytes).
  Variable shuffle : list (bytes * img data) -> list (bytes * img data).
  Notation tmpl := (tmpl num data). Notation call := (call num data). Notation tdoc := (tdoc num data).
  Notation id_of := (id_of (num := num) (data := data) sha1hex).
  (** templates that a program can get: created by drawing calls that use such
      templates, or a page of such a template *)
  Inductive made : tmpl -> Prop :=
  | made_new corner size imgs begin (l : list call) t : (forall u place, In (Use (Some u) place) l -> made u) ->
      new_tpl sha1hex shuffle corner size imgs begin l = Ret t -> made t
  | made_page t k t' : made t -> 1 <= k -> from_page t k = Some t' -> made t'.
  (** the template itself, the templates it uses, the templates those use, ... *)
  Inductive within : tmpl -> tmpl -> Prop :=
  | w_self t : within t t
  | w_sub s u t : In u (t_subs t) -> within s u -> within s t.
End Made.
Section Reg.
  Variables (num data : Type) (sha1hex : bytes -> bytes).
  Variable shuffle : list (bytes * img data) -> list (bytes * img data).
  Notation tmpl := (tmpl num data). Notation call := (call num data). Notation tdoc := (tdoc num data).
  Notation id_of := (id_of (num := num) (data := data) sha1hex).
  Notation made := (made num data sha1hex shuffle). Notation within := (within num data).
  Lemma in_put {A} k (v : A) m e : In e (put k v m) -> e = (k, v) \/ In e m.
  Proof. induction m as [|[x w] m IH]; cbn; [intros [<-|[]]; now left|]. destruct (beqb k x); cbn; intros [<-|H]; auto. destruct (IH H); auto. Qed.
  Lemma put_keys {A} k (v : A) m k' : In k' (map fst (put k v m)) <-> k' = k \/ In k' (map fst m).
  Proof.
    induction m as [|[x w] m IH]; cbn; [intuition|]. destruct (beqb k x) eqn:E; cbn; [apply beqb_eq in E; subst; intuition|]. rewrite IH. intuition.
  Qed.
  Lemma get_key {A} k (m : list (bytes * A)) : In k (map fst m) -> exists v, get k m = Some v.
  Proof.
    induction m as [|[x w] m IH]; cbn; [intros []|]. intros H. destruct (beqb k x) eqn:E; [eauto|]. destruct H as [->|H]; [rewrite beqb_refl in E; discriminate E|auto].
  Qed.
  Lemma get_in {A} k (v : A) m : get k m = Some v -> In (k, v) m.
  Proof. induction m as [|[x w] m IH]; cbn; [discriminate|]. destruct (beqb k x) eqn:E; [apply beqb_eq in E; subst; intros [= <-]; now left|intros H; right; auto]. Qed.
  Lemma id_ret t i : t_id sha1hex t = Ret i -> id_of t = i.
  Proof. unfold TplProps.id_of. now intros ->. Qed.

  (** what holds for every template made, and for the templates registered in a document *)
  Definition tinv (t : tmpl) : Prop :=
    t_id sha1hex t = Ret (id_of t) /\ (forall u, In u (t_subs t) -> made u) /\
    (forall u r, In u (t_subs t) -> In r (t_subs u) -> exists r', In r' (t_subs t) /\ id_of r' = id_of r).
  Definition dinv (c : tdoc) : Prop :=
    forall k s, In (k, s) (c_tpls c) -> made s /\ tinv s /\ k = id_of s /\ forall r, In r (t_subs s) -> In (id_of r) (map fst (c_tpls c)).
  Lemma reg_fold : forall subs (m0 : list (bytes * tmpl)), (forall u, In u subs -> t_id sha1hex u = Ret (id_of u)) ->
    exists m, fold_left (fun m s => obind m (fun m => obind (t_id sha1hex s) (fun i => Ret (put i s m)))) subs (Ret m0) = Ret m /\
    (forall e, In e m -> In e m0 \/ exists u, In u subs /\ e = (id_of u, u)) /\
    (forall k, In k (map fst m) <-> In k (map fst m0) \/ exists u, In u subs /\ k = id_of u).
  Proof.
    induction subs as [|u subs IH]; intros m0 H; cbn [fold_left].
    - exists m0. split; [reflexivity|]. split; [now left|]. intros k. split; [now left|]. intros [K|(x & [] & _)]. exact K.
    - cbn [obind]. rewrite (H u (or_introl eq_refl)). cbn [obind]. destruct (IH (put (id_of u) u m0)) as (m & E & P & Q); [intros; apply H; now right|].
      exists m. split; [exact E|]. split.
      + intros e He. destruct (P e He) as [I|(x & I & ->)]; [apply in_put in I as [-> |I]; [right; exists u; now split; [left|]|now left]|right; exists x; split; [now right|reflexivity]].
      + intros k. rewrite Q, put_keys. split.
        * intros [[->|K]|(x & I & ->)]; [right; exists u; split; [now left|reflexivity]|now left|right; exists x; split; [now right|reflexivity]].
        * intros [K|(x & [<-|I] & ->)]; [left; now right|left; now left|right; exists x; now split].
  Qed.
  Lemma use_reg t place (c : tdoc) : made t -> tinv t -> (forall u, In u (t_subs t) -> tinv u) -> 1 <= c_page c -> c_page c < zlen (c_pages c) -> dinv c ->
    exists c', use sha1hex shuffle t place c = Ret c' /\ dinv c' /\
      (forall k, In k (map fst (c_tpls c')) <-> k = id_of t \/ In k (map fst (c_tpls c)) \/ exists u, In u (t_subs t) /\ k = id_of u).
  Proof.
    intros Mt (T1 & T2 & T3) Ts G1 G2 D. unfold use. destruct (c_page c <=? 0) eqn:E0; [lia|]. rewrite T1. cbn [obind].
    destruct (reg_fold (t_subs t) (put (id_of t) t (c_tpls c))) as (m & E & P & Q); [intros u Hu; apply (Ts u Hu)|]. rewrite E. cbn [obind].
    match goal with |- context [emit ?b ?c0] => destruct (emit_ok num data b c0) as (c' & Ec); [split; assumption|]; destruct (emit_spec num data b c0 c') as (_ & Et & _); [split; assumption|exact Ec|] end.
    exists c'. cbn [c_tpls] in Et. split; [exact Ec|].
    assert (K : forall k, In k (map fst m) <-> k = id_of t \/ In k (map fst (c_tpls c)) \/ exists u, In u (t_subs t) /\ k = id_of u).
    { intros k. rewrite Q, put_keys. intuition. }
    split; [|rewrite Et; exact K]. intros k s Hin. rewrite Et in *. destruct (P _ Hin) as [I|(u & Iu & [= -> ->])].
    - apply in_put in I as [[= -> ->]|I].
      + split; [exact Mt|]. split; [now split|]. split; [reflexivity|]. intros r Hr. apply K. right; right. now exists r.
      + destruct (D k s I) as (A1 & A2 & A3 & A4). split; [exact A1|]. split; [exact A2|]. split; [exact A3|]. intros r Hr. apply K. right; left. now apply A4.
    - split; [now apply T2|]. split; [now apply Ts|]. split; [reflexivity|]. intros r Hr. destruct (T3 u r Iu Hr) as (r' & Ir & Er). apply K. right; right. exists r'. now split.
  Qed.
  Definition pg (c : tdoc) : Prop := 0 <= c_page c < zlen (c_pages c).
  Lemma emit_same b (c c' : tdoc) : emit b c = Ret c' -> c_tpls c' = c_tpls c /\ c_imgs c' = c_imgs c /\ c_page c' = c_page c /\ zlen (c_pages c') = zlen (c_pages c).
  Proof.
    unfold emit. destruct (c_page c <=? 0); [intros [= <-]; repeat split|]. destruct (at_ (c_pages c) (c_page c)); [|discriminate]. intros [= <-]. cbn. unfold zlen. rewrite set_nth_length. repeat split.
  Qed.
  Definition allinv (t : tmpl) : Prop := made t /\ tinv t /\ forall v, In v (t_subs t) -> tinv v.
  Lemma step_inv x (c c' : tdoc) : (forall u place, x = Use (Some u) place -> allinv u) -> pg c -> dinv c -> step sha1hex shuffle x c = Ret c' -> pg c' /\ dinv c'.
  Proof.
    intros Hu P D H. destruct x as [footer b|n|b|name im|[t|] place]; cbn [step] in H.
    - destruct (c_err c); [injection H as <-; now split|]. 
      match type of H with obind (emit footer ?c0) _ = _ => destruct (emit footer c0) as [c2| |] eqn:E1; try discriminate H end. cbn [obind] in H.
      apply emit_same in E1 as (A1 & _ & A2 & A3). apply emit_same in H as (B1 & _ & B2 & B3). cbn in *. unfold pg, dinv in *. rewrite B1, A1. split; [|exact D]. rewrite B2, B3. unfold zlen in *. rewrite app_length. cbn. lia.
    - injection H as <-. destruct ((0 <? n) && (n <? zlen (c_pages c))) eqn:E; [|now split]. split; [unfold pg; cbn; lia|exact D].
    - apply emit_same in H as (B1 & _ & B2 & B3). unfold pg, dinv in *. rewrite B1, B2, B3. now split.
    - injection H as <-. destruct (c_err c); [now split|]. destruct (get name (c_imgs c)); now split.
    - destruct (Hu t place eq_refl) as (M & T & Tv). destruct (Z_le_gt_dec (c_page c) 0) as [L|L].
      + unfold use in H. destruct (c_page c <=? 0) eqn:E0; [|lia]. injection H as <-. now split.
      + destruct (use_reg t place c M T Tv ltac:(lia) ltac:(destruct P; lia) D) as (c2 & E & D2 & _). rewrite E in H. injection H as <-. split; [|exact D2].
        destruct (use_spec num data sha1hex shuffle t place c c2) as (A & _ & B & _); [split; destruct P; lia|exact E|]. unfold pg in *. now rewrite A, B.
    - injection H as <-. now split.
  Qed.
  Lemma run_inv : forall l (c c' : tdoc), (forall u place, In (Use (Some u) place) l -> allinv u) -> pg c -> dinv c -> run sha1hex shuffle l c = Ret c' -> pg c' /\ dinv c'.
  Proof.
    induction l as [|x l IH]; intros c c' Hu P D H; [injection H as <-; now split|]. cbn [run] in H. destruct (step sha1hex shuffle x c) as [d| |] eqn:E; try discriminate H. cbn [obind] in H.
    destruct (step_inv x c d) as [P' D']; [intros u place ->; apply (Hu u place); now left|exact P|exact D|exact E|]. exact (IH d c' (fun u p I => Hu u p (or_intror I)) P' D' H).
  Qed.
  Lemma made_inv t : made t -> allinv t.
  Proof.
    induction 1 as [corner size imgs begin l t Hm IH H|t k t' Hm IH Hk F].
    - split; [exact (made_new _ _ _ _ _ _ _ _ _ _ Hm H)|]. pose proof (C51_pages_partial _ _ _ _ _ _ _ _ _ _ H) as (_ & _ & B & _).
      unfold new_tpl in H. destruct (run sha1hex shuffle (AddPage [] begin :: l) (tpl_start num imgs)) as [c| |] eqn:Er; try discriminate H. cbn [obind] in H. injection H as <-.
      destruct (run_inv (AddPage [] begin :: l) (tpl_start num imgs) c) as [P D]; [intros u place [E|I]; [discriminate E|exact (IH u place I)]|unfold pg; cbn; lia|intros k s []|exact Er|].
      assert (Sub : forall u, In u (map snd (sort_by by_key (c_tpls c))) <-> exists k, In (k, u) (c_tpls c)).
      { intros u. rewrite in_map_iff. split; [intros ((k, x) & <- & I); exists k; exact (Permutation_in _ (sort_by_perm _ _) I)|].
        intros (k & I). exists (k, u). split; [reflexivity|]. exact (Permutation_in _ (Permutation_sym (sort_by_perm _ _)) I). }
      split; [split; [|split]|].
      + unfold TplProps.id_of, t_id. rewrite B. reflexivity.
      + cbn [t_subs]. intros u I. apply Sub in I as (k & I). exact (proj1 (D k u I)).
      + cbn [t_subs]. intros u r I Hr. apply Sub in I as (k & I). destruct (D k u I) as (_ & _ & _ & C). specialize (C r Hr). apply in_map_iff in C as ((k', r') & E & I'). cbn in E. subst k'.
        destruct (D _ _ I') as (_ & _ & E & _). exists r'. split; [apply Sub; eauto|now rewrite E].
      + cbn [t_subs]. intros u I. apply Sub in I as (k & I). exact (proj1 (proj2 (D k u I))).
    - destruct IH as (_ & (T1 & T2 & T3) & Tv).
      assert (K : 1 <= k <= num_pages t) by (unfold from_page in F; destruct (k =? 0); [discriminate F|]; destruct (num_pages t <? k) eqn:E; [discriminate F|lia]).
      destruct (from_page_spec _ _ t k K) as (t2 & F2 & Ft & Fp & _ & _ & Fu). rewrite F in F2. injection F2 as <-.
      split; [exact (made_page _ _ _ _ _ _ _ Hm Hk F)|]. unfold tinv. rewrite Fu. split; [split; [|now split]|exact Tv].
      unfold t_id, TplProps.id_of, t_id, t_bytes. rewrite Fp, Ft. unfold num_pages, zlen in K. rewrite at_nth by lia. destruct (nth_error (t_pages t) (Z.to_nat k)) eqn:E; [reflexivity|]. apply nth_error_None in E. lia.
  Qed.
  Lemma within_id s t : within s t -> allinv t -> allinv s /\ (s = t \/ exists r, In r (t_subs t) /\ id_of r = id_of s).
  Proof.
    induction 1 as [t|s u t Hu Hw IH]; intros A; [split; [exact A|now left]|]. destruct A as (M & (T1 & T2 & T3) & Tv).
    destruct (IH (made_inv u (T2 u Hu))) as (As & [->|(r & Ir & Er)]); (split; [exact As|right]); [now exists u|]. destruct (T3 u r Hu Ir) as (r' & Ir' & Er'). exists r'. split; [exact Ir'|congruence].
  Qed.
End Reg.

(** Using a template on a page registers it and all templates it uses, directly or
    not; what was registered stays; nothing else is registered; and the page gets
    the drawing operator for it. *)
Theorem C51_registered : forall (num data : Type) (sha1hex : bytes -> bytes) shuffle (imgs : list (bytes * img data)) (l : list (call num data)) c t place,
  (forall u p, In (Use (Some u) p) l -> made num data sha1hex shuffle u) -> run sha1hex shuffle l (tpl_start num imgs) = Ret c -> made num data sha1hex shuffle t -> 1 <= c_page c ->
  exists c', use sha1hex shuffle t place c = Ret c' /\
    (forall s, within num data s t -> exists i s', t_id sha1hex s = Ret i /\ get i (c_tpls c') = Some s' /\ t_id sha1hex s' = Ret i) /\
    (forall i, get i (c_tpls c) <> None -> get i (c_tpls c') <> None) /\
    (forall i s, get i (c_tpls c') = Some s -> get i (c_tpls c) <> None \/ exists s, within num data s t /\ t_id sha1hex s = Ret i) /\
    exists i old, t_id sha1hex t = Ret i /\ at_ (c_pages c) (c_page c) = Some old /\ at_ (c_pages c') (c_page c) = Some (old ++ place ++ bs "/TPL" ++ i ++ bs " Do Q" ++ nl).
Proof.
  intros num data sha1hex shuffle imgs l c t place Hu Hr Hm Hp.
  destruct (run_inv num data sha1hex shuffle l (tpl_start num imgs) c) as [P D]; [intros u p I; apply made_inv, (Hu u p I)|unfold pg; cbn; lia|intros k s []|exact Hr|].
  pose proof (made_inv num data sha1hex shuffle t Hm) as A. destruct A as (M & T & Tv). pose proof T as (T1 & T2 & T3).
  destruct (use_reg num data sha1hex shuffle t place c M T Tv Hp ltac:(destruct P; lia) D) as (c' & E & D' & K). exists c'. split; [exact E|].
  assert (Reg : forall i, In i (map fst (c_tpls c')) -> exists s', get i (c_tpls c') = Some s' /\ t_id sha1hex s' = Ret i).
  { intros i I. destruct (get_key i _ I) as (s' & G). exists s'. split; [exact G|]. apply get_in in G. destruct (D' _ _ G) as (_ & (Q & _) & -> & _). exact Q. }
  split; [|split; [|split]].
  - intros s W. destruct (within_id num data sha1hex shuffle s t W (conj M (conj T Tv))) as ((_ & (S1 & _) & _) & C). exists (id_of sha1hex s).
    destruct (Reg (id_of sha1hex s)) as (s' & G & Q); [apply K; destruct C as [->|(r & Ir & Er)]; [now left|right; right; exists r; now split]|]. exists s'. now repeat split.
  - intros i Hi. destruct (get i (c_tpls c)) as [v|] eqn:G; [|contradiction]. apply get_in in G. destruct (Reg i) as (s' & -> & _); [|discriminate]. apply K. right; left. apply (in_map fst) in G. exact G.
  - intros i s G. apply get_in in G. apply (in_map fst) in G. apply K in G. cbn in G. destruct G as [->|[G|(u & Iu & ->)]].
    + right. exists t. split; [constructor|exact T1].
    + left. destruct (get_key _ _ G) as (v & ->). discriminate.
    + right. exists u. split; [econstructor; [exact Iu|constructor]|]. apply Tv, Iu.
  - destruct (use_spec num data sha1hex shuffle t place c c') as (_ & _ & _ & B); [split; destruct P; lia|exact E|].
    destruct (at_ (c_pages c) (c_page c)) as [old|] eqn:Eo.
    + exists (id_of sha1hex t), old. split; [exact T1|]. split; [reflexivity|]. rewrite (B (c_page c) old ltac:(lia) Eo), Z.eqb_refl. reflexivity.
    + exfalso. rewrite at_nth in Eo by lia. apply nth_error_None in Eo. unfold pg, zlen in P. lia.
Qed.
Print Assumptions C51_registered.
