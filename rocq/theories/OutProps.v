From Coq Require Import String ZArith List Bool Lia.
From Verif Require Import Base OutModel.
Import ListNotations.
Open Scope Z_scope.

(** C88: handing the document out to writers and files that may fail at any point. *)

(** ** Specification *)
Definition prefix {A} (p s : list A) : Prop := exists r, s = p ++ r.
(** a writer that follows the rules of io.Writer: between nothing and everything, and an error if not everything *)
Definition lawful (w : writer) : Prop := forall b, let '(m, e) := w b in 0 <= m <= Z.of_nat (List.length b) /\ (m < Z.of_nat (List.length b) -> e = true).
(** every writer of the history takes at most what it is given *)
Definition bounded (w : writer) : Prop := forall b, let '(m, _) := w b in 0 <= m <= Z.of_nat (List.length b).
Definition writer_of (c : call) : option writer := match c with Output w | OutputAndClose w _ | OutputFileAndClose _ _ w _ => Some w | _ => None end.

Section Props.
  Variable close : nat -> bytes * bool.
  Notation exec := (OutModel.exec close).
  Notation run := (OutModel.run close).

  (** what the first n calls of Close that got to work have put into the buffer *)
  Fixpoint made (n : nat) : bytes := match n with O => [] | S n => made n ++ fst (close n) end.

  Lemma close_made d out : out ++ d_buf d = made (d_tries d) -> out ++ d_buf (close_doc close d) = made (d_tries (close_doc close d)).
  Proof.
    intros H. unfold close_doc. destruct (d_err d || d_closed d); [exact H|]. destruct (close (d_tries d)) as [b e] eqn:E. cbn. rewrite E. cbn. now rewrite app_assoc, H.
  Qed.
  Lemma write_made w d t d' out : out ++ d_buf d = made (d_tries d) -> write_to w d = Ret (t, d') ->
    (out ++ t) ++ d_buf d' = made (d_tries d') /\ d_tries d' = d_tries d /\ d_closed d' = d_closed d /\ (d_err d' = false -> d_buf d' = []).
  Proof.
    intros H. unfold write_to. destruct (d_buf d) as [|x l] eqn:E.
    - intros [= <- <-]. rewrite app_nil_r. split; [rewrite E; exact H|]. split; [reflexivity|]. split; [reflexivity|]. intros _. exact E.
    - destruct (w (x :: l)) as [m e]. destruct (Z.ltb_spec m 0); [discriminate|]. cbn [orb]. destruct (Z.ltb_spec (Z.of_nat (List.length (x :: l))) m); [discriminate|].
      intros [= <- <-]. cbn [d_buf d_tries d_closed d_err]. rewrite <- app_assoc. replace (firstn (Z.to_nat m) (x :: l) ++ skipn (Z.to_nat m) (x :: l)) with (x :: l) by (symmetry; apply firstn_skipn).
      repeat split; [exact H|]. intros X. apply orb_false_elim in X as [_ X]. apply Z.ltb_ge in X. apply skipn_all2. cbn [List.length] in *. lia.
  Qed.
  Lemma output_made w d t d' out : out ++ d_buf d = made (d_tries d) -> OutModel.output close w d = Ret (t, d') ->
    (out ++ t) ++ d_buf d' = made (d_tries d') /\ (d_err d' = false -> d_buf d' = [] /\ d_closed d' = true).
  Proof.
    intros H. unfold OutModel.output. destruct (d_err d) eqn:Ee.
    - intros [= <- <-]. rewrite app_nil_r. split; [exact H|]. congruence.
    - destruct (d_closed d) eqn:Ec.
      + intros W. destruct (write_made _ _ _ _ _ H W) as (A & _ & B & C). split; [exact A|]. intros X. split; [auto|congruence].
      + intros W. destruct (write_made _ _ _ _ _ (close_made d out H) W) as (A & _ & B & C). split; [exact A|]. intros X. split; [auto|].
        rewrite B. clear - Ee Ec X W. unfold close_doc in *. rewrite Ee, Ec in *. cbn [orb] in *. destruct (close (d_tries d)) as [b e]. cbn [d_closed d_err d_buf] in *.
        destruct e; [|reflexivity]. exfalso. unfold write_to in W. cbn [d_buf d_err d_closed d_tries] in W. destruct (d_buf d ++ b).
        * injection W as _ <-. discriminate X.
        * destruct (w (z :: l)) as [m e]. destruct ((m <? 0) || (Z.of_nat (List.length (z :: l)) <? m)); [discriminate|]. injection W as _ <-. discriminate X.
  Qed.
  Lemma exec_made c st t st' out : out ++ d_buf (fst st) = made (d_tries (fst st)) -> exec c st = Ret (t, st') ->
    (out ++ t) ++ d_buf (fst st') = made (d_tries (fst st')) /\
    (writer_of c <> None -> d_err (fst st') = false -> d_buf (fst st') = [] /\ d_closed (fst st') = true).
  Proof.
    destruct st as [d k]. cbn [fst]. intros H. destruct c as [| | |w|w cl|f cf w cl]; cbn [OutModel.exec writer_of].
    - intros [= <- <-]. cbn [fst]. rewrite app_nil_r. split; [apply close_made; exact H|congruence].
    - intros [= <- <-]. cbn [fst]. rewrite app_nil_r. split; [exact H|congruence].
    - intros [= <- <-]. cbn [fst]. rewrite app_nil_r. split; [exact H|congruence].
    - destruct (OutModel.output close w d) as [[t0 d0]| |] eqn:O; try discriminate. cbn [obind fst snd]. intros [= <- <-]. cbn [fst].
      destruct (output_made w d t0 d0 out H O) as [A B]. split; [exact A|]. intros _ X. auto.
    - destruct (OutModel.output close w d) as [[t0 d0]| |] eqn:O; try discriminate. cbn [obind fst snd]. intros [= <- <-]. cbn [fst].
      destruct (output_made w d t0 d0 out H O) as [A B]. split; [exact A|]. intros _ X. auto.
    - destruct (d_err d) eqn:Ee; [intros [= <- <-]; cbn [fst]; rewrite app_nil_r; split; [exact H|congruence]|].
      destruct cf; [intros [= <- <-]; cbn [fst]; rewrite app_nil_r; split; [exact H|cbn; congruence]|].
      destruct (OutModel.output close w d) as [[t0 d0]| |] eqn:O; try discriminate. cbn [obind fst snd]. intros [= <- <-]. cbn [fst].
      destruct (output_made w d t0 d0 out H O) as [A B]. split; [exact A|]. intros _ X. auto.
  Qed.
  Lemma run_made cs : forall st ts st' out, out ++ d_buf (fst st) = made (d_tries (fst st)) -> run cs st = Ret (ts, st') ->
    (out ++ List.concat ts) ++ d_buf (fst st') = made (d_tries (fst st')).
  Proof.
    induction cs as [|c cs IH]; intros st ts st' out H; cbn [OutModel.run].
    - intros [= <- <-]. cbn. now rewrite app_nil_r.
    - destruct (exec c st) as [[t st1]| |] eqn:E; try discriminate. cbn [obind snd fst].
      destruct (run cs st1) as [[ts2 st2]| |] eqn:R; try discriminate. cbn [obind snd fst]. intros [= <- <-].
      destruct (exec_made c st t st1 out H E) as [A _]. specialize (IH st1 ts2 st2 (out ++ t) A R). cbn [List.concat]. now rewrite app_assoc.
  Qed.

  (** when the first closing succeeds the document is never assembled again *)
  Definition doc : bytes := fst (close 0).
  Definition single (d : odoc) : Prop := (d_tries d = 0%nat /\ d_closed d = false /\ d_buf d = []) \/ (d_tries d = 1%nat /\ d_closed d = true).
  Lemma exec_single c st t st' : snd (close 0) = false -> single (fst st) -> exec c st = Ret (t, st') -> single (fst st').
  Proof.
    intros Hc. destruct st as [d k]. cbn [fst].
    assert (Cl : single d -> single (close_doc close d)).
    { intros S. unfold close_doc. destruct (d_err d) eqn:Ee; [exact S|]. destruct S as [(S1 & S2 & S3)|[S1 S2]].
      - rewrite S1, S2. cbn [orb]. destruct (close 0) as [b e]. cbn in Hc. subst. right. cbn. auto.
      - rewrite S2. right. auto. }
    assert (Wr : forall w d t d', single d -> d_closed d = true \/ d_buf d = [] -> write_to w d = Ret (t, d') -> single d').
    { intros w0 d0 t0 d' S D. unfold write_to. destruct (d_buf d0) as [|z l] eqn:E; [intros [= <- <-]; exact S|]. destruct D as [D|D]; [|discriminate].
      destruct (w0 (z :: l)) as [m e]. destruct ((m <? 0) || (Z.of_nat (List.length (z :: l)) <? m)); [discriminate|]. intros [= <- <-].
      destruct S as [(S1 & S2 & S3)|[S1 S2]]; [congruence|]. right. cbn. auto. }
    assert (Ou : forall w t d', single d -> OutModel.output close w d = Ret (t, d') -> single d').
    { intros w t0 d' S. unfold OutModel.output. destruct (d_err d) eqn:Ee; [intros [= <- <-]; exact S|].
      destruct (d_closed d) eqn:Ec; intros W; [apply (Wr _ _ _ _ S (or_introl Ec) W)|]. refine (Wr _ _ _ _ (Cl S) _ W).
      destruct (Cl S) as [(_ & _ & X)|[_ X]]; auto. }
    intros S. destruct c as [| | |w|w cl|f cf w cl]; cbn [OutModel.exec].
    - intros [= <- <-]. apply Cl. exact S.
    - intros [= <- <-]. exact S.
    - intros [= <- <-]. exact S.
    - destruct (OutModel.output close w d) as [[t0 d0]| |] eqn:O; try discriminate. cbn [obind fst snd]. intros [= <- <-]. exact (Ou _ _ _ S O).
    - destruct (OutModel.output close w d) as [[t0 d0]| |] eqn:O; try discriminate. cbn [obind fst snd]. intros [= <- <-]. exact (Ou _ _ _ S O).
    - destruct (d_err d); [intros [= <- <-]; exact S|]. destruct cf; [intros [= <- <-]; exact S|].
      destruct (OutModel.output close w d) as [[t0 d0]| |] eqn:O; try discriminate. cbn [obind fst snd]. intros [= <- <-]. exact (Ou _ _ _ S O).
  Qed.
  Lemma run_single cs : snd (close 0) = false -> forall st ts st', single (fst st) -> run cs st = Ret (ts, st') -> single (fst st').
  Proof.
    intros Hc. induction cs as [|c cs IH]; intros st ts st' S; cbn [OutModel.run]; [intros [= <- <-]; exact S|].
    destruct (exec c st) as [[t st1]| |] eqn:E; try discriminate. cbn [obind snd fst].
    destruct (run cs st1) as [[ts2 st2]| |] eqn:R; try discriminate. cbn [obind snd fst]. intros [= <- <-]. eapply IH; [eapply exec_single; eassumption|exact R].
  Qed.
  Lemma run_app a b st ts st' : run (a ++ b) st = Ret (ts, st') -> exists ta sa tb, run a st = Ret (ta, sa) /\ run b sa = Ret (tb, st') /\ ts = ta ++ tb.
  Proof.
    revert st ts. induction a as [|c a IH]; intros st ts; cbn [app OutModel.run]; [intros H; do 3 eexists; split; [reflexivity|split; [exact H|reflexivity]]|].
    destruct (exec c st) as [[t st1]| |]; try discriminate. cbn [obind snd fst].
    destruct (run (a ++ b) st1) as [[ts2 st2]| |] eqn:R; try discriminate. cbn [obind snd fst]. intros [= <- <-].
    destruct (IH st1 ts2 R) as (ta & sa & tb & A & B & ->). exists (t :: ta), sa, tb. rewrite A. cbn. auto.
  Qed.

  (** ** Whatever the writers do, the bytes handed out by all calls together are the beginning of the document, each byte once and in order;
      when a call returns no error they are the whole document *)
  Theorem C88_once :
    forall (cs : list call) (k : disk) (ts : list bytes) (st' : odoc * disk),
      snd (close 0) = false -> run cs (fresh, k) = Ret (ts, st') ->
      prefix (List.concat ts) doc /\
      (forall before c, cs = before ++ [c] -> writer_of c <> None -> d_err (fst st') = false -> List.concat ts = doc).
  Proof.
    intros cs k ts st' Hc R. pose proof (run_made cs (fresh, k) ts st' [] eq_refl R) as M. cbn [app] in M.
    pose proof (run_single cs Hc (fresh, k) ts st' (or_introl (conj eq_refl (conj eq_refl eq_refl))) R) as S. split.
    - destruct S as [(S1 & S2 & S3)|[S1 S2]].
      + rewrite S1, S3 in M. cbn in M. rewrite app_nil_r in M. exists doc. rewrite M. reflexivity.
      + rewrite S1 in M. cbn in M. exists (d_buf (fst st')). symmetry. exact M.
    - intros before c -> W E. apply run_app in R as (ta & sa & tb & Ra & Rb & ->). cbn [OutModel.run] in Rb.
      destruct (exec c sa) as [[t s1]| |] eqn:X; try discriminate. cbn [obind snd fst] in Rb. injection Rb as <- <-.
      pose proof (run_made before (fresh, k) ta sa [] eq_refl Ra) as Ma. cbn [app] in Ma.
      destruct (exec_made c sa t s1 _ Ma X) as [_ B]. destruct (B W E) as [B1 B2]. rewrite B1, app_nil_r in M.
      destruct S as [(_ & S2 & _)|[S1 _]]; [congruence|]. rewrite S1 in M. exact M.
  Qed.

  (** ** The first time: no error means that this writer has the whole document, otherwise it has the beginning of it.
      Missing for the full statement: later calls (C88_retry_refuted) *)
  Theorem C88_first_partial :
    forall (w : writer) (t : bytes) (d : odoc), OutModel.output close w fresh = Ret (t, d) ->
      prefix t doc /\
      (d_err d = false <-> snd (close 0) = false /\ (doc <> [] -> w doc = (Z.of_nat (List.length doc), false))) /\
      (d_err d = false -> t = doc).
  Proof.
    intros w t d. unfold OutModel.output, fresh, close_doc, doc. cbn [d_err d_closed d_tries d_buf orb app]. destruct (close 0) as [b e]. cbn [fst snd].
    unfold write_to. cbn [d_buf d_err d_closed d_tries]. destruct b as [|x l].
    - intros [= <- <-]. cbn. split; [exists []; reflexivity|]. split; [|reflexivity]. destruct e; split; intros H; try discriminate; try (split; [reflexivity|congruence]); try reflexivity. destruct H; discriminate.
    - assert (F : x :: l <> []) by discriminate. remember (x :: l) as bb eqn:Ebb. clear Ebb.
      destruct (w bb) as [m e2]. destruct (Z.ltb_spec m 0); [discriminate|]. cbn [orb]. destruct (Z.ltb_spec (Z.of_nat (List.length bb)) m); [discriminate|].
      intros [= <- <-]. cbn [d_err]. split; [exists (skipn (Z.to_nat m) bb); symmetry; apply firstn_skipn|].
      destruct (Z.ltb_spec m (Z.of_nat (List.length bb))) as [L|L].
      + rewrite orb_true_r. split; [|discriminate]. split; [discriminate|]. intros [_ X]. specialize (X F). injection X as -> ->. lia.
      + rewrite orb_false_r. split.
        * split; [intros X; apply orb_false_elim in X as [-> ->]; split; [reflexivity|intros _; f_equal; lia]|].
          intros [-> X]. specialize (X F). injection X as _ ->. reflexivity.
        * intros _. apply firstn_all2. lia.
  Qed.

  (** a lawful writer never makes a call panic *)
  Theorem C88_total : forall (cs : list call) (st : odoc * disk), (forall c w, In c cs -> writer_of c = Some w -> bounded w) -> exists r, run cs st = Ret r.
  Proof.
    assert (O : forall w d, bounded w -> exists r, OutModel.output close w d = Ret r).
    { intros w d B. unfold OutModel.output. destruct (d_err d); [eauto|]. unfold write_to. destruct (d_buf (if d_closed d then d else close_doc close d)) as [|x l]; [eauto|].
      specialize (B (x :: l)). destruct (w (x :: l)) as [m e]. destruct (Z.ltb_spec m 0); [lia|]. destruct (Z.ltb_spec (Z.of_nat (List.length (x :: l))) m); [lia|]. cbn. eauto. }
    induction cs as [|c cs IH]; intros [d k] H; cbn [OutModel.run]; [eauto|].
    assert (E : exists t d1 k1, exec c (d, k) = Ret (t, (d1, k1))).
    { destruct c as [| | |w|w cl|f cf w cl]; cbn [OutModel.exec]; try (do 3 eexists; reflexivity).
      - destruct (O w d (H _ w (or_introl eq_refl) eq_refl)) as [[t d1] ->]. cbn. do 3 eexists. reflexivity.
      - destruct (O w d (H _ w (or_introl eq_refl) eq_refl)) as [[t d1] ->]. cbn. do 3 eexists. reflexivity.
      - destruct (d_err d); [do 3 eexists; reflexivity|]. destruct cf; [do 3 eexists; reflexivity|].
        destruct (O w d (H _ w (or_introl eq_refl) eq_refl)) as [[t d1] ->]. cbn. do 3 eexists. reflexivity. }
    destruct E as (t & d1 & k1 & ->). cbn [obind snd fst]. destruct (IH (d1, k1)) as [r ->]; [intros c' w Hi; apply H; right; exact Hi|]. cbn. eauto.
  Qed.

  (** ** Files: without an error the file is the document, if closing it did not fail; other files are as before; with an error of the
      document before the call, or when the file cannot be made, the disk is as before *)
  Theorem C88_file_partial :
    forall (f : bytes) (cf : bool) (w : writer) (cl : option nat) (k : disk) (t : bytes) (d : odoc) (k' : disk),
      exec (OutputFileAndClose f cf w cl) (fresh, k) = Ret (t, (d, k')) ->
      (forall g, g <> f -> k' g = k g) /\
      (cf = true -> k' = k /\ d_err d = true) /\
      (cf = false -> exists b, k' f = Some b /\ prefix b doc) /\
      (d_err d = false -> cl = None -> k' f = Some doc).
  Proof.
    intros f cf w cl k t d k'. cbn [OutModel.exec]. change (d_err fresh) with false. cbn iota. destruct cf.
    - intros [= <- <- <-]. split; [reflexivity|]. split; [auto|]. split; discriminate.
    - destruct (OutModel.output close w fresh) as [[t0 d0]| |] eqn:O; try discriminate. cbn [obind fst snd]. intros [= <- <- <-].
      destruct (C88_first_partial w t0 d0 O) as ([r P] & _ & Q). split; [|split; [discriminate|split]].
      + intros g Hg. unfold put_file. destruct (beqb g f) eqn:E; [apply beqb_eq in E; contradiction|reflexivity].
      + intros _. eexists. split; [unfold put_file; rewrite beqb_refl; reflexivity|]. destruct cl as [n|]; [|exists r; exact P].
        exists (skipn n t0 ++ r). rewrite app_assoc, firstn_skipn. exact P.
      + intros E ->. unfold put_file. rewrite beqb_refl, (Q E). reflexivity.
  Qed.
End Props.
Print Assumptions C88_once.
Print Assumptions C88_first_partial.
Print Assumptions C88_total.
Print Assumptions C88_file_partial.

(** ** Refuted *)
Definition good (_ : nat) : bytes * bool := (bs "%PDF-1.3 document", false).
Definition all_of_it : writer := fun b => (Z.of_nat (List.length b), false).
Definition three_bytes : writer := fun b => (3, true).
Definition no_disk : disk := fun _ => None.
(** the full statement: when Output returns no error, its writer has got the document *)
Definition nil_means_complete : Prop :=
  forall close before w ts st t d k, (forall n, snd (close n) = false) ->
    run close before (fresh, no_disk) = Ret (ts, st) -> exec close (Output w) st = Ret (t, (d, k)) -> d_err d = false -> t = doc close.

(** after a failure the caller clears the error and tries again: no error, but the beginning of the file is missing *)
Theorem C88_retry_refuted :
  ~ nil_means_complete /\
  exists st, run good [Output three_bytes; ClearError; Output all_of_it] (fresh, no_disk) = Ret ([bs "%PD"; []; bs "F-1.3 document"], st) /\ d_err (fst st) = false.
Proof.
  split.
  - intros H. specialize (H good [Output three_bytes; ClearError] all_of_it _ _ _ _ _ (fun _ => eq_refl) eq_refl eq_refl eq_refl). discriminate H.
  - eexists. split; vm_compute; reflexivity.
Qed.
Print Assumptions C88_retry_refuted.

(** OutputFileAndClose: the disk is full when the file is closed, and no error is returned *)
Theorem C88_close_refuted :
  ~ (forall close f w cl k t d k', snd (close 0%nat) = false -> lawful w -> exec close (OutputFileAndClose f false w cl) (fresh, k) = Ret (t, (d, k')) -> d_err d = false -> k' f = Some (doc close)).
Proof.
  intros H. assert (L : lawful all_of_it) by (intros b; cbn; split; [lia|lia]).
  specialize (H good (bs "a.pdf") all_of_it (Some 4%nat) no_disk _ _ _ eq_refl L eq_refl eq_refl). vm_compute in H. discriminate H.
Qed.
Print Assumptions C88_close_refuted.

(** OutputFileAndClose: a document that cannot be finished (a clip left open, say) is an error, but the file that was there is gone *)
Definition bad (_ : nat) : bytes * bool := ([], true).
Definition old_disk : disk := put_file (bs "a.pdf") (bs "last year's report") no_disk.
Theorem C88_overwritten_refuted :
  ~ (forall close f w k t d k', lawful w -> exec close (OutputFileAndClose f false w None) (fresh, k) = Ret (t, (d, k')) -> d_err d = true -> k' f = k f).
Proof.
  intros H. assert (L : lawful all_of_it) by (intros b; cbn; split; [lia|lia]).
  specialize (H bad (bs "a.pdf") all_of_it old_disk _ _ _ L eq_refl eq_refl). vm_compute in H. discriminate H.
Qed.
Print Assumptions C88_overwritten_refuted.

(** ** The hypotheses are met *)
Example lawful_three : lawful all_of_it /\ (forall b, (3 <= List.length b)%nat -> let '(m, _) := three_bytes b in 0 <= m <= Z.of_nat (List.length b)).
Proof. split; [intros b; cbn; split; lia|intros b H; cbn; lia]. Qed.
Example history : exists ts st, run good [Close; OutputFileAndClose (bs "a.pdf") true all_of_it None; ClearError; OutputAndClose all_of_it false] (fresh, no_disk) = Ret (ts, st) /\
  d_err (fst st) = false /\ List.concat ts = doc good.
Proof. eexists. eexists. split; [vm_compute; reflexivity|]. split; vm_compute; reflexivity. Qed.
