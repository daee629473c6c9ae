(** Proofs for C62, continued: loops, the table of object numbers. *)
From Verif Require Import Base TextModel Crypto DocModel DocSpec DocSort DocProofs DocWalk DocParts DocRes DocRes2 DocEnd DocXref DocLayout ResSpec ResProofs ResProofs2.
From Coq Require Import String Permutation.
Open Scope Z_scope.
Notation length := List.length.
Local Notation "a +++ b" := (List.app a b) (at level 60, right associativity, only parsing).
Local Notation objs := (list (Z * bytes)).

(** ** The table *)
Definition kind (s : slot) : Z :=
  match s with SLayer _ => 0 | SBlend _ => 1 | SGrad _ => 2 | SSpot _ => 3 | SFile _ => 4 | SFont _ => 5 | SImg _ => 6 | STpl _ => 7
             | SImp _ => 8 | SAtt _ => 9 | SJs => 10 | SEnc => 11 | SOutl => 12 end.
Lemma slot_eqb_eq a b : slot_eqb a b = true <-> a = b.
Proof.
  split.
  - destruct a, b; cbn; try discriminate; intros H; try (apply Z.eqb_eq in H; congruence); try (apply beqb_eq in H; congruence); reflexivity.
  - intros <-. destruct a; cbn; try apply Z.eqb_refl; try (now apply beqb_eq); reflexivity.
Qed.
Lemma find_slot_hit s ts t k : find_slot s ts = Some k -> find_slot s (ts +++ t) = Some k.
Proof. induction ts as [|[x v] ts IH]; cbn; [discriminate|]. destruct (slot_eqb s x); auto. Qed.
Lemma find_slot_skip s ts t : ~ In s (map fst ts) -> find_slot s (ts +++ t) = find_slot s t.
Proof.
  induction ts as [|[x v] ts IH]; cbn [app find_slot map fst]; intros H; [reflexivity|].
  destruct (slot_eqb s x) eqn:Ex; [|apply IH; intros X; apply H; now right]. apply slot_eqb_eq in Ex. exfalso. apply H. now left.
Qed.
Definition of_kind (n : Z) (ts : list (slot * Z)) : Prop := forall s, In s (map fst ts) -> kind s = n.
Lemma find_slot_kind n s ts t : of_kind n ts -> kind s <> n -> find_slot s (ts +++ t) = find_slot s t.
Proof. intros H Hk. apply find_slot_skip. intros X. apply H in X. congruence. Qed.

Definition slot_dec (a b : slot) : {a = b} + {a <> b}.
Proof. destruct (slot_eqb a b) eqn:H; [left; now apply slot_eqb_eq|right]. intros X. apply slot_eqb_eq in X. congruence. Defined.

(** ** Loops *)
Lemma fold_reg {A} (f : wst -> A -> wst) (key : A -> slot) (Inv : wst -> Prop) (P : A -> Z -> objs -> Prop) l :
  (forall x k a b c, P x k b -> P x k (a +++ b +++ c)) ->
  (forall x v, ok (f v x) -> ok v) ->
  (forall x v, In x l -> cipok v -> Inv v -> ok (f v x) ->
     exists os k, adds v (f v x) os /\ w_tab (f v x) = (key x, k) :: w_tab v /\ P x k os /\ Inv (f v x)) ->
  forall w, cipok w -> Inv w -> ok (fold_left f l w) ->
  exists os ts, adds w (fold_left f l w) os /\ w_tab (fold_left f l w) = ts +++ w_tab w /\ Inv (fold_left f l w) /\
    (forall s, In s (map fst ts) -> exists x, In x l /\ s = key x) /\
    (forall x, In x l -> exists y k, In y l /\ key y = key x /\ find_slot (key x) ts = Some k /\ P y k os).
Proof.
  intros Hmono Hok. induction l as [|x l IH]; intros Hf w Hc HI Hfin.
  - exists [], []. split; [apply adds_refl|]. split; [reflexivity|]. split; [exact HI|]. split; intros ? [].
  - cbn [fold_left] in *. assert (Hx : ok (f w x)) by (eapply ok_fold; [|exact Hfin]; auto).
    destruct (Hf x w (or_introl eq_refl) Hc HI Hx) as (o1 & k1 & A1 & T1 & P1 & I1).
    destruct (IH (fun y v Hy => Hf y v (or_intror Hy)) (f w x) (ad_cip _ _ _ A1 Hc) I1 Hfin) as (o2 & t2 & A2 & T2 & I2 & K2 & H2).
    exists (o1 +++ o2), (t2 +++ [(key x, k1)]). split; [eapply adds_trans; eassumption|]. split; [rewrite T2, T1, <- app_assoc; reflexivity|].
    split; [exact I2|]. split.
    + intros s Hs. rewrite map_app, in_app_iff in Hs. destruct Hs as [Hs|[<-|[]]].
      * destruct (K2 s Hs) as (y & Hy & ->). exists y. split; [now right|reflexivity].
      * exists x. split; [now left|reflexivity].
    + assert (Hcase : forall y, In y l -> exists z k, In z (x :: l) /\ key z = key y /\ find_slot (key y) (t2 +++ [(key x, k1)]) = Some k /\ P z k (o1 +++ o2)).
      { intros y Hy. destruct (H2 y Hy) as (z & k & Hz & Ez & Fz & Pz). exists z, k. split; [now right|]. split; [exact Ez|]. split; [now apply find_slot_hit|].
        rewrite <- (app_nil_r o2). now apply Hmono. }
      intros y [<-|Hy]; [|auto].
      destruct (in_dec slot_dec (key x) (map fst t2)) as [Hin|Hn].
      * destruct (K2 _ Hin) as (y & Hy & Ey). rewrite Ey. destruct (Hcase y Hy) as (z & k & X1 & X2 & X3 & X4). exists z, k. rewrite <- Ey in *. auto.
      * exists x, k1. split; [now left|]. split; [reflexivity|]. split; [|exact (Hmono x k1 [] o1 o2 P1)].
        rewrite find_slot_skip by exact Hn. cbn [find_slot]. now rewrite (proj2 (slot_eqb_eq _ _) eq_refl).
Qed.

Lemma iteri_fold {A} (f : Z -> A -> wst -> wst) l : forall j w,
  iteri f j l w = fold_left (fun w p => f (fst p) (snd p) w) (combine (nums j (length l)) l) w.
Proof. induction l as [|x l IH]; intros j w; [reflexivity|]. cbn [iteri length nums combine fold_left fst snd]. apply IH. Qed.
Lemma in_combine_nums {A} (l : list A) : forall j i x, In (i, x) (combine (nums j (length l)) l) <-> j <= i /\ nth_error l (Z.to_nat (i - j)) = Some x.
Proof.
  induction l as [|y l IH]; intros j i x.
  - cbn. split; [easy|]. intros [_ H]. now destruct (Z.to_nat (i - j)).
  - cbn [length nums combine In]. rewrite IH. split.
    + intros [H|[H1 H2]].
      * injection H as <- <-. split; [lia|]. now rewrite Z.sub_diag.
      * split; [lia|]. replace (Z.to_nat (i - j)) with (S (Z.to_nat (i - (j + 1)))) by lia. exact H2.
    + intros [H1 H2]. destruct (Z.eq_dec i j) as [->|Hne].
      * rewrite Z.sub_diag in H2. injection H2 as ->. now left.
      * right. split; [lia|]. replace (Z.to_nat (i - j)) with (S (Z.to_nat (i - (j + 1)))) in H2 by lia. exact H2.
Qed.

Lemma oin_mid a b c : forall k x, Oin b k x -> Oin (a +++ b +++ c) k x.
Proof. intros k x H. unfold Oin in *. apply in_or_app. right. apply in_or_app. now left. Qed.
Lemma oin_l a b : forall k x, Oin a k x -> Oin (a +++ b) k x.
Proof. intros k x H. unfold Oin in *. apply in_or_app. now left. Qed.
Lemma oin_r a b : forall k x, Oin b k x -> Oin (a +++ b) k x.
Proof. intros k x H. unfold Oin in *. apply in_or_app. now right. Qed.

Lemma nodup_key {A} (l : list (bytes * A)) x y : NoDup (map fst l) -> In x l -> In y l -> fst x = fst y -> x = y.
Proof.
  induction l as [|z l IH]; intros N Hx Hy E; [easy|]. cbn [map] in N. apply NoDup_cons_iff in N as [N1 N2].
  destruct Hx as [->|Hx], Hy as [->|Hy]; [reflexivity| | |auto].
  - exfalso. apply N1. rewrite E. now apply in_map.
  - exfalso. apply N1. rewrite <- E. now apply in_map.
Qed.

Section Stages.
  Context {E : env} (d : doc (e_num E)).
  Hypothesis W : forall site A (l : list A), Permutation (e_shuffle E site A l) l.
  Hypothesis RS : resources_sound d.
  Local Notation S := (cipher d).
  Local Notation KI := (fun A s b lt (l : list A) x => proj1 (keyed_in E W s b lt l x)).
  Local Notation KI' := (fun A s b lt (l : list A) x => proj2 (keyed_in E W s b lt l x)).

  Definition looks (w : wst) (os : objs) {A} (things : A -> Prop) (key : A -> slot) (P : (Z -> bytes -> Prop) -> Z -> A -> Prop) : Prop :=
    forall a, things a -> exists k, find_slot (key a) (w_tab w) = Some k /\ P (Oin os) k a.
  Lemma looks_step {A} (things : A -> Prop) key (P : (Z -> bytes -> Prop) -> Z -> A -> Prop) n w w' os o ts :
    (forall (O O' : Z -> bytes -> Prop) k a, (forall x y, O x y -> O' x y) -> P O k a -> P O' k a) ->
    looks w os things key P -> w_tab w' = ts +++ w_tab w -> of_kind n ts -> (forall a, things a -> kind (key a) <> n) ->
    looks w' (os +++ o) things key P.
  Proof.
    intros Hm H T K Hk a Ha. destruct (H a Ha) as (k & F & X). exists k. split.
    - rewrite T. rewrite (find_slot_kind n) by auto. exact F.
    - eapply Hm; [|exact X]. apply oin_l.
  Qed.


  Lemma iteri_stage {A} (f : Z -> A -> wst -> wst) (key : Z -> slot) n (P : (Z -> bytes -> Prop) -> Z -> A -> Prop) (l : list A) j0 w :
    (forall (O O' : Z -> bytes -> Prop) k a, (forall x y, O x y -> O' x y) -> P O k a -> P O' k a) ->
    (forall a b, key a = key b -> a = b) -> (forall j, kind (key j) = n) ->
    (forall j x v, ok (f j x v) -> ok v) ->
    (forall j x v, In x l -> cipok v -> ok (f j x v) -> exists os k, adds v (f j x v) os /\ w_tab (f j x v) = (key j, k) :: w_tab v /\ P (Oin os) k x) ->
    cipok w -> ok (iteri f j0 l w) ->
    exists os ts, adds w (iteri f j0 l w) os /\ w_tab (iteri f j0 l w) = ts +++ w_tab w /\ of_kind n ts /\
      looks (iteri f j0 l w) os (numbered l j0) (fun p => key (fst p)) (fun O k p => P O k (snd p)).
  Proof.
    intros Hm Hinj Hk Hok Hf Hc. rewrite iteri_fold. intros Hfin.
    destruct (fold_reg (fun w p => f (fst p) (snd p) w) (fun p => key (fst p)) (fun _ => True) (fun p k os => P (Oin os) k (snd p)) (combine (nums j0 (length l)) l)) with (w := w)
      as (os & ts & A1 & T & _ & K & H); auto.
    - intros x k a b c X. eapply Hm; [|exact X]. apply oin_mid.
    - intros x v. apply Hok.
    - intros [j x] v Hx Hcv _ Hv. cbn [fst snd] in *. apply in_combine_r in Hx. destruct (Hf j x v Hx Hcv Hv) as (o & k & X1 & X2 & X3). exists o, k. auto.
    - exists os, ts. split; [exact A1|]. split; [exact T|]. split.
      + intros s Hs. destruct (K s Hs) as (x & _ & ->). apply Hk.
      + intros [j x] [Hj Hx]. cbn [fst snd] in *. destruct (H (j, x)) as ([j' x'] & k & X1 & X2 & X3 & X4). { apply in_combine_nums. auto. }
        cbn [fst snd] in *. apply Hinj in X2. subst j'. apply in_combine_nums in X1 as [_ X1]. rewrite Hx in X1. injection X1 as <-.
        exists k. split; [rewrite T; now apply find_slot_hit|exact X4].
  Qed.
  Lemma fold_stage {A} (f : wst -> A -> wst) (key : A -> slot) n (Inv : wst -> Prop) (P : (Z -> bytes -> Prop) -> Z -> A -> Prop) (l : list A) w :
    (forall (O O' : Z -> bytes -> Prop) k a, (forall x y, O x y -> O' x y) -> P O k a -> P O' k a) ->
    (forall a b, In a l -> In b l -> key a = key b -> a = b) -> (forall j, kind (key j) = n) ->
    (forall x v, ok (f v x) -> ok v) ->
    (forall x v, In x l -> cipok v -> Inv v -> ok (f v x) -> exists os k, adds v (f v x) os /\ w_tab (f v x) = (key x, k) :: w_tab v /\ P (Oin os) k x /\ Inv (f v x)) ->
    cipok w -> Inv w -> ok (fold_left f l w) ->
    exists os ts, adds w (fold_left f l w) os /\ w_tab (fold_left f l w) = ts +++ w_tab w /\ of_kind n ts /\ Inv (fold_left f l w) /\
      looks (fold_left f l w) os (fun a => In a l) key P.
  Proof.
    intros Hm Hinj Hk Hok Hf Hc HI Hfin.
    destruct (fold_reg f key Inv (fun p k os => P (Oin os) k p) l) with (w := w)
      as (os & ts & A1 & T & I1 & K & H); auto.
    - intros x k a b c X. eapply Hm; [|exact X]. apply oin_mid.
    - exists os, ts. split; [exact A1|]. split; [exact T|]. split; [|split; [exact I1|]].
      + intros s Hs. destruct (K s Hs) as (x & _ & ->). apply Hk.
      + intros x Hx. destruct (H x Hx) as (y & k & X1 & X2 & X3 & X4). apply Hinj in X2; auto. subst y.
        exists k. split; [rewrite T; now apply find_slot_hit|exact X4].
  Qed.

  (** *** fonts *)
  Lemma fold_filter {A} (f : wst -> A -> wst) (p : A -> bool) l w : (forall v x, p x = false -> f v x = v) ->
    fold_left f l w = fold_left f (filter p l) w.
  Proof.
    intros H. revert w. induction l as [|x l IH]; intros w; [reflexivity|]. cbn [fold_left filter]. destruct (p x) eqn:Ep; cbn [fold_left]; [apply IH|].
    rewrite H by exact Ep. apply IH.
  Qed.
  Definition embedded (e : bytes * fontfile) : bool := negb (ff_utf8 (snd e)).
  Definition is_file (e : bytes * fontfile) : Prop := In e (d_files d) /\ ff_utf8 (snd e) = false.
  Definition fontP (O : Z -> bytes -> Prop) (k : Z) (e : bytes * font) : Prop := font_at d O S k (snd e).

  Lemma pre_font key w w' os : adds (set_tab ((SFont key, w_n w + 1) :: w_tab w) w) w' os -> os <> [] -> adds w w' os.
  Proof.
    intros A Hne. pose proof (ad_n _ _ _ A) as N. change (w_n (set_tab ((SFont key, w_n w + 1) :: w_tab w) w)) with (w_n w) in N.
    assert (zlen os > 0) by (destruct os; [easy|]; rewrite zlen_cons; pose proof (zlen_nonneg os); lia).
    apply (adds_pretab [(SFont key, w_n w + 1)]); [|exact A].
    intros _ H2. constructor; [cbn; lia|constructor].
  Qed.

  Lemma put_fonts_stage w : cipok w -> ok (put_fonts d w) ->
    exists os t1 t2, adds w (put_fonts d w) os /\ w_tab (put_fonts d w) = t2 +++ t1 +++ w_tab w /\ of_kind 4 t1 /\ of_kind 5 t2 /\
      looks (put_fonts d w) os (fun e => In e (d_fonts d)) (fun e => SFont (fst e)) fontP.
  Proof.
    intros Hc. unfold put_fonts. destruct (w_err w) eqn:Ee. { intros [H _]; congruence. }
    cbv zeta. destruct (put_diffs_exact (d_diffs d) w) as (o1 & A1 & T1 & E1 & D1).
    set (w1 := fold_left (fun w x => put_diff x w) (d_diffs d) w) in *. clearbody w1.
    rewrite (fold_filter (fun w x => put_fontfile d x w) embedded).
    2:{ intros v [f i] H. unfold embedded in H. cbn [snd] in H. unfold put_fontfile. destruct (w_err v); [reflexivity|]. destruct (ff_utf8 i); [reflexivity|discriminate]. }
    set (fl := filter embedded _).
    intros Hok.
    assert (Hok2 : ok (fold_left (fun w x => put_fontfile d x w) fl w1)). { eapply ok_fold; [|exact Hok]. intros. eapply put_font_ok; eauto. }
    assert (Fl : forall e, In e fl <-> is_file e).
    { intros e. unfold fl, is_file. rewrite filter_In. unfold embedded. split; intros [X Y].
      - apply (keyed_in E W) in X. split; [exact X|]. now destruct (ff_utf8 (snd e)).
      - split; [now apply (keyed_in E W)|]. now rewrite Y. }
    destruct (fold_stage (fun w x => put_fontfile d x w) (fun e => SFile (fst e)) 4 (fun _ => True) (fun O k e => file_at O S k (fst e) (snd e)) fl w1)
      as (o2 & t2 & A2 & T2 & K2 & _ & L2); auto.
    { intros O O' k a HO. apply file_at_mono; [exact HO|reflexivity]. }
    { intros a b Ha Hb X. injection X as X. apply Fl in Ha as [Ha _]. apply Fl in Hb as [Hb _]. eapply nodup_key; eauto. apply (so_filekeys _ RS). }
    { intros x v Hv. eapply put_fontfile_ok. exact Hv. }
    { intros x v Hx Hcv _ Hv. apply Fl in Hx as [Hx Hu]. destruct (put_fontfile_exact d x v Hcv Hu (so_files _ RS _ Hx Hu) Hv) as (o & X1 & X2 & X3). exists o, (w_n v + 1). auto. }
    { apply (ad_cip _ _ _ A1 Hc). }
    set (w2 := fold_left (fun w x => put_fontfile d x w) fl w1) in *. clearbody w2.
    set (kl := keyed E 5 (d_sort d) (fun a b => by_key a b) (d_fonts d)) in *.
    set (Inv := fun v => forall f, find_slot (SFile f) (w_tab v) = find_slot (SFile f) (w_tab w2)).
    set (O0 := Oin (o1 +++ o2)).
    destruct (fold_stage (fun w' x => put_font d (w_n w) x w') (fun e => SFont (fst e)) 5 Inv (fun O k e => font_at d (fun k b => O0 k b \/ O k b) S k (snd e)) kl w2)
      as (o3 & t3 & A3 & T3 & K3 & _ & L3); auto.
    { intros O O' k a HO. apply font_at_mono; [|reflexivity]. intros x y [X|X]; [now left|right; auto]. }
    { intros a b Ha Hb X. injection X as X. apply (keyed_in E W) in Ha. apply (keyed_in E W) in Hb. eapply nodup_key; eauto. apply (so_fontkeys _ RS). }
    { intros x v Hv. eapply put_font_ok. exact Hv. }
    { intros [key fo] v Hx Hcv HI Hv. apply (keyed_in E W) in Hx. cbn [fst snd].
      assert (HI' : forall k, Inv (set_tab ((SFont key, k) :: w_tab v) v)) by (intros k f; cbn [w_tab set_tab find_slot slot_eqb]; apply HI).
      unfold put_font in Hv |- *. destruct (w_err v) eqn:Ev. { destruct Hv; congruence. }
      cbv zeta in Hv |- *. set (u := set_tab ((SFont key, w_n v + 1) :: w_tab v) v) in *.
      assert (Fin : forall w' os, adds u w' os -> os <> [] -> w_tab w' = w_tab u -> font_at d (fun k b => O0 k b \/ Oin os k b) S (w_n v + 1) fo ->
        exists os k, adds v w' os /\ w_tab w' = (SFont key, k) :: w_tab v /\ font_at d (fun k b => O0 k b \/ Oin os k b) S k fo /\ Inv w').
      { intros w' os A Hne T X. exists os, (w_n v + 1). split; [now apply (pre_font key)|]. split; [exact T|]. split; [exact X|].
        intros f. rewrite T. apply HI'. }
      assert (Simple : forall t1 : bool, fo_type fo = (if t1 then FType1 else FTrueType) -> ok (put_font_simple t1 (w_n w) fo u) ->
        exists os k, adds v (put_font_simple t1 (w_n w) fo u) os /\ w_tab (put_font_simple t1 (w_n w) fo u) = (SFont key, k) :: w_tab v /\
          font_at d (fun k b => O0 k b \/ Oin os k b) S k fo /\ Inv (put_font_simple t1 (w_n w) fo u)).
      { intros t1 Et Hs. destruct (so_simple _ RS _ Hx) as (Hd & info & I1 & I2 & I3). { cbn [snd]. rewrite Et. destruct t1; auto. }
        cbn [snd] in *. destruct (L2 (fo_file fo, info)) as (kf & F & Hf). { apply Fl. split; [exact I1|exact I2]. }
        cbn [fst snd] in *.
        destruct (put_font_simple_exact d t1 (w_n w) fo u O0 info) as (os & X1 & X2 & X3 & X4); auto.
        - lia.
        - assert (Sv : saved (SFile (fo_file fo)) u = kf). { unfold saved, u. cbn [w_tab set_tab find_slot slot_eqb]. rewrite HI, F. reflexivity. }
          rewrite Sv. eapply file_at_mono; [|reflexivity|exact Hf]. apply oin_r.
        - intros Hp. destruct (nth_error (d_diffs d) (Z.to_nat (fo_diffn fo - 1))) as [diff|] eqn:En.
          + exists diff. split; [reflexivity|]. apply oin_l. specialize (D1 _ _ En). replace (w_n w + 1 + Z.of_nat (Z.to_nat (fo_diffn fo - 1))) with (w_n w + fo_diffn fo) in D1 by lia. exact D1.
          + apply nth_error_None in En. lia.
        - eapply Fin; eauto. unfold font_at. rewrite Et. destruct t1; exact X4. }
      destruct (fo_type fo) eqn:Et.
      - destruct (put_font_core_exact fo u) as (os & X1 & X2 & X3). eapply Fin; eauto.
        + intros ->. destruct X3.
        + unfold font_at. rewrite Et. right. exact X3.
      - apply (Simple true); auto.
      - apply (Simple false); auto.
      - destruct (put_font_utf8_exact d fo u Hcv Hv) as (os & X1 & X2 & X3 & X4). eapply Fin; eauto.
        assert (X : font_at d (Oin os) S (w_n v + 1) fo) by (unfold font_at; rewrite Et; exact X4).
        eapply font_at_mono; [|reflexivity|exact X]. auto.
      - destruct Hv; discriminate. }
    { apply (ad_cip _ _ _ A2 (ad_cip _ _ _ A1 Hc)). }
    { intros f. reflexivity. }
    exists (o1 +++ o2 +++ o3), t2, t3. split; [eapply adds_trans; [exact A1|eapply adds_trans; [exact A2|exact A3]]|].
    split; [rewrite T3, T2, T1; reflexivity|]. split; [exact K2|]. split; [exact K3|].
    intros e He. destruct (L3 e) as (k & F & X). { now apply (keyed_in E W). }
    exists k. split; [exact F|]. unfold fontP. eapply font_at_mono; [|reflexivity|exact X]. intros x y [Y|Y].
    - rewrite app_assoc. now apply oin_l.
    - rewrite app_assoc. now apply oin_r.
  Qed.
End Stages.
