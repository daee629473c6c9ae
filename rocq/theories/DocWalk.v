(** What each writing function of DocModel adds to the file. *)
From Verif Require Import Base TextModel Crypto DocModel DocProofs.
From Coq Require Import String.
Open Scope Z_scope.
Notation length := List.length.
Local Notation "a +++ b" := (List.app a b) (at level 60, right associativity, only parsing).

Section Walk.
  Context {E : env} (d : doc (e_num E)).

  (** what the security handler does to data of object k *)
  Definition cipher (k : Z) (b : bytes) : bytes :=
    match d_protect d with
    | None => b
    | Some p => fst (xor_stream (rc4_new (object_key E (pr_key p) k)) b)
    end.
  Lemma cipher_len k b : zlen (cipher k b) = zlen b.
  Proof. unfold cipher. destruct (d_protect d); [|reflexivity]. unfold zlen. now rewrite xor_stream_length. Qed.

  Lemma encrypt_writes b w : writes w (snd (encrypt d b w)) [].
  Proof.
    unfold encrypt. destruct (d_protect d) as [p|]; [|apply writes_refl].
    destruct (xor_stream _ b) as [r st]. constructor; auto.
    - cbn. now rewrite app_nil_r.
    - intros _. exists []. now split.
    - intros _ m st' H. injection H as <- <-. cbn. lia.
  Qed.
  Lemma encrypt_fresh b w : fresh w -> fst (encrypt d b w) = cipher (w_n w) b.
  Proof.
    intros Hf. unfold encrypt, cipher. destruct (d_protect d) as [p|]; [|reflexivity].
    destruct (w_cip w) as [[m st]|] eqn:Ec.
    - specialize (Hf _ _ Ec). replace (m =? w_n w) with false by lia. now destruct (xor_stream _ b).
    - now destruct (xor_stream _ b).
  Qed.
  Lemma textstr_writes s w : writes w (snd (textstr d s w)) [].
  Proof. unfold textstr. pose proof (encrypt_writes s w). destruct (encrypt d s w). exact H. Qed.
  Lemma textstr_fresh s w : fresh w -> fst (textstr d s w) = bs "(" +++ escape (cipher (w_n w) s) +++ bs ")".
  Proof. intros H. unfold textstr. apply (encrypt_fresh s) in H. destruct (encrypt d s w). cbn in *. now subst. Qed.
  Lemma textstr16_writes s w : writes w (snd (textstr16 d s w)) [].
  Proof.
    unfold textstr16, utf16. destruct (utf8toutf16 s true).
    - apply textstr_writes.
    - pose proof (textstr_writes [] (panic w)). exact (writes_trans _ _ _ [] [] (writes_panic0 w) H).
    - pose proof (textstr_writes [] (panic w)). exact (writes_trans _ _ _ [] [] (writes_panic0 w) H).
  Qed.

  Definition stream_text (data : bytes) : bytes := bs "stream" +++ nl +++ data +++ nl +++ bs "endstream" +++ nl.
  Lemma putstream_writes b w : fresh w -> writes w (putstream d b w) (stream_text (cipher (w_n w) b)).
  Proof.
    intros Hf. unfold putstream. pose proof (encrypt_writes b w) as H. apply (encrypt_fresh b) in Hf.
    destruct (encrypt d b w) as [r w']. cbn in H, Hf. subst r. unfold stream_text.
    pose proof (writes_snoc _ _ _ (bs "endstream") (writes_snoc _ _ _ (cipher (w_n w) b) (writes_snoc _ _ _ (bs "stream") H))) as G.
    rewrite <- ?app_assoc in G. cbn [app] in G |- *. exact G.
  Qed.
  Lemma putstream_grow b w w' : grow w w' -> grow w (putstream d b w').
  Proof.
    intros H. eapply grow_trans; [exact H|]. unfold putstream. pose proof (encrypt_writes b w') as He.
    destruct (encrypt d b w') as [r v]. do 3 apply grow_out. now exists [].
  Qed.
  Lemma textstr_grow s v t w : textstr d s v = (t, w) -> grow v w.
  Proof. intros H. exists []. pose proof (textstr_writes s v). now rewrite H in H0. Qed.
  Lemma textstr16_grow s v t w : textstr16 d s v = (t, w) -> grow v w.
  Proof. intros H. exists []. pose proof (textstr16_writes s v). now rewrite H in H0. Qed.

  (** A whole stream object: dictionary text, then the data *)
  Lemma adds_stream w w2 dict data :
    cipok w -> writes (newobj w) w2 dict -> w_cip w2 = w_cip (newobj w) ->
    adds w (out (bs "endobj") (putstream d data w2))
      [obj (w_n w + 1) (dict +++ stream_text (cipher (w_n w + 1) data))].
  Proof.
    intros Hc H Hcip. apply adds_obj. eapply writes_trans; [exact H|].
    assert (Hn : w_n w2 = w_n w + 1) by (rewrite (wr_n _ _ _ H); apply newobj_n).
    rewrite <- Hn. apply putstream_writes. intros m st Em. rewrite Hcip in Em.
    apply newobj_fresh in Em; [|exact Hc]. rewrite newobj_n in Em. lia.
  Qed.
End Walk.

Ltac gstep :=
  cbv zeta; lazymatch goal with
  | |- grow ?w ?w => apply grow_refl
  | |- pgrow ?w ?w => apply pgrow_refl
  | |- pushes ?w ?w => apply pushes_refl
  | |- grow (newobj _) (newobj _) => apply grow_refl
  | |- pgrow (newobj _) (newobj _) => apply pgrow_refl
  | |- grow _ (out _ _) => apply grow_out
  | |- pgrow _ (out _ _) => apply pgrow_out
  | |- grow _ (save _ _) => apply grow_save
  | |- pgrow _ (save _ _) => apply pgrow_save
  | |- grow _ (panic _) => apply grow_panic
  | |- pgrow _ (panic _) => apply pgrow_panic
  | |- grow _ (putstream _ _ _) => apply putstream_grow
  | |- grow _ (fold_left _ _ _) => apply grow_fold; [intros|]
  | |- pgrow _ (fold_left _ _ _) => apply pgrow_fold; [intros|]
  | |- pgrow _ (iteri _ _ _ _) => apply pgrow_iteri; [intros|]
  | |- pushes _ (fold_left _ _ _) => apply pushes_fold; [intros|]
  | |- pushes _ (iteri _ _ _ _) => apply pushes_iteri; [intros|]
  | |- pushes _ (out (bs "endobj") _) => eapply pushes_obj
  | |- context [let (_, _) := ?x in _] => let H := fresh "Hd" in destruct x eqn:H
  | |- context [if ?c then _ else _] => destruct c
  | |- context [match ?x with _ => _ end] => destruct x
  end.

(** ** Dictionaries in which /Length is found *)
Fixpoint nosl (s : bytes) : bool :=
  match s with
  | x :: ((y :: _) as t) => negb ((x =? 47) && (y =? 76)) && nosl t
  | _ => true
  end.
Definition clean (s : bytes) : bool := negb (match s with 76 :: _ => true | _ => false end) && nosl s.

Lemma hd76 s : negb (match s with 76 :: _ => true | _ => false end) = true <-> hd 0 s <> 76.
Proof.
  destruct s as [|c s]; [now cbn|]. cbn [hd].
  destruct (Z.eq_dec c 76) as [->|H]; [cbn; easy|]. split; [easy|intros _].
  destruct c as [|p|p]; [easy| |easy]. repeat (destruct p as [p|p|]; try reflexivity; try easy).
Qed.
Lemma nosl_app a b : nosl a = true -> nosl b = true -> hd 0 b <> 76 -> nosl (a +++ b) = true.
Proof.
  intros Ha Hb Hh. induction a as [|x a IH]; [exact Hb|].
  destruct a as [|y a].
  - cbn [app]. destruct b as [|z b]; [reflexivity|]. cbn [nosl]. cbn [hd] in Hh.
    cbn [nosl] in Hb. rewrite Hb. replace (z =? 76) with false by lia. now rewrite andb_false_r.
  - cbn [nosl] in Ha. apply andb_prop in Ha as [H1 H2]. change ((x :: y :: a) +++ b) with (x :: y :: (a +++ b)).
    cbn [nosl]. rewrite H1. apply (IH H2).
Qed.
Lemma clean_iff s : clean s = true <-> hd 0 s <> 76 /\ nosl s = true.
Proof. unfold clean. rewrite andb_true_iff, hd76. reflexivity. Qed.
Lemma clean_app a b : clean a = true -> clean b = true -> clean (a +++ b) = true.
Proof.
  rewrite !clean_iff. intros [H1 H2] [H3 H4]. split; [destruct a; auto|]. now apply nosl_app.
Qed.
Lemma clean_digits s : Forall (fun c => is_digit c = true \/ c = 45) s -> clean s = true.
Proof.
  intros H. apply clean_iff. unfold is_digit in H. split.
  - destruct H as [|c s Hc _]; cbn; lia.
  - induction H as [|c s Hc H IH]; [reflexivity|]. destruct s as [|x s]; [reflexivity|].
    cbn [nosl] in *. rewrite IH. lia.
Qed.
Lemma dec_nat_digits n : Forall (fun c => is_digit c = true) (dec_nat n).
Proof. apply dec_fuel_digits. Qed.
Lemma clean_dec n : clean (dec n) = true.
Proof.
  apply clean_digits. unfold dec. destruct (n <? 0).
  - constructor; [now right|]. eapply Forall_impl; [|apply dec_nat_digits]. now left.
  - eapply Forall_impl; [|apply dec_nat_digits]. now left.
Qed.

Ltac cl := repeat match goal with
  | |- clean (_ +++ _) = true => apply clean_app
  | |- clean (dec _) = true => apply clean_dec
  | |- clean (bs _) = true => reflexivity
  | |- clean nl = true => reflexivity
  | |- clean [] = true => reflexivity
  | |- clean _ = true => assumption
  end.

From Verif Require Import DocSpec.
Lemma declared_length_app a n b :
  clean a = true -> 0 <= n -> starts_nondigit b ->
  declared_length (a +++ bs "/Length " +++ dec n +++ b) = Some n.
Proof.
  intros Ha Hn Hb. apply clean_iff in Ha as [_ Ha]. induction a as [|x a IH].
  - cbn [app]. change (bs "/Length " +++ dec n +++ b) with (47 :: 76 :: 101 :: 110 :: 103 :: 116 :: 104 :: 32 :: dec n +++ b).
    cbn [declared_length]. replace (prefixb _ _) with true by reflexivity.
    cbn [skipn]. rewrite read_dec_dec; auto.
  - cbn [app declared_length].
    assert (Hp : prefixb (bs "/Length ") (x :: a +++ bs "/Length " +++ dec n +++ b) = false).
    { destruct a as [|y a].
      - cbn. now rewrite andb_false_r.
      - cbn [nosl] in Ha. apply andb_prop in Ha as [H1 _]. cbn in H1 |- *.
        destruct (x =? 47) eqn:E1; destruct (y =? 76) eqn:E2; cbn in H1; try discriminate.
        + apply Z.eqb_eq in E1. subst x. cbn. destruct y as [|p|p]; try reflexivity.
          apply Z.eqb_neq in E2.
          repeat (destruct p as [p|p|]; try reflexivity; try easy).
        + destruct x as [|p|p]; try reflexivity. apply Z.eqb_neq in E1.
          repeat (destruct p as [p|p|]; try reflexivity; try easy).
        + destruct x as [|p|p]; try reflexivity. apply Z.eqb_neq in E1.
          repeat (destruct p as [p|p|]; try reflexivity; try easy). }
    rewrite Hp. apply IH. destruct a as [|y a]; [reflexivity|]. cbn [nosl] in Ha. now apply andb_prop in Ha as [_ Ha].
Qed.

Definition cgrow (w w' : wst) : Prop := exists s, clean s = true /\ writes w w' s /\ w_cip w' = w_cip w.
Lemma cgrow_refl w : cgrow w w. Proof. exists []. split; [reflexivity|]. split; [apply writes_refl|reflexivity]. Qed.
Lemma cgrow_trans w1 w2 w3 : cgrow w1 w2 -> cgrow w2 w3 -> cgrow w1 w3.
Proof. intros (a & Ca & Ha & Ea) (b & Cb & Hb & Eb). exists (a +++ b). split; [now apply clean_app|]. split; [eapply writes_trans; eauto|congruence]. Qed.
Lemma cgrow_out s w w' : cgrow w w' -> clean (s +++ nl) = true -> cgrow w (out s w').
Proof. intros H Hs. eapply cgrow_trans; [exact H|]. eexists. split; [exact Hs|]. split; [apply writes_out|reflexivity]. Qed.
Lemma cgrow_save s w w' : cgrow w w' -> cgrow w (save s w').
Proof. intros H. eapply cgrow_trans; [exact H|]. exists []. split; [reflexivity|]. split; [apply writes_save|reflexivity]. Qed.
Lemma cgrow_fold {A} (f : wst -> A -> wst) l w w' :
  (forall x v, In x l -> cgrow v (f v x)) -> cgrow w w' -> cgrow w (fold_left f l w').
Proof.
  revert w'. induction l as [|x l IH]; intros w' Hf H; [exact H|]. cbn. apply IH.
  - intros. apply Hf. now right.
  - eapply cgrow_trans; [exact H|]. apply Hf. now left.
Qed.

Section Streams.
  Context {E : env} (d : doc (e_num E)).
  Lemma adds_stream_obj_text w w2 w3 l p q data :
    cipok w -> cgrow (newobj w) w2 ->
    l = p +++ bs "/Length " +++ dec (zlen data) +++ q -> clean p = true -> starts_nondigit q ->
    pgrow (out l w2) w3 ->
    exists body, adds w (out (bs "endobj") (putstream d data w3)) [obj (w_n w + 1) body] /\
      stream_body body (cipher d (w_n w + 1) data) /\ exists x y, body = x +++ l +++ y.
  Proof.
    intros Hc (a & Ca & Ha & Ea) -> Hp Hq (b & Hb & Eb).
    eexists. split; [eapply adds_stream; [exact Hc| |]|].
    1:{ eapply writes_trans; [apply writes_snoc, Ha|exact Hb]. }
    1:{ rewrite Eb. cbn. exact Ea. }
    split; [|exists a; eexists; unfold stream_text; rewrite <- ?app_assoc; reflexivity].
    eexists. split; [unfold stream_text; reflexivity|].
    unfold zlength. fold (zlen (cipher d (w_n w + 1) data)). rewrite cipher_len.
    rewrite <- ?app_assoc. rewrite (app_assoc a p).
    apply declared_length_app; [now apply clean_app|apply zlen_nonneg|].
    destruct q as [|c q]; [reflexivity|]. exact Hq.
  Qed.
  Lemma adds_stream_obj w w2 w3 l p q data :
    cipok w -> cgrow (newobj w) w2 ->
    l = p +++ bs "/Length " +++ dec (zlen data) +++ q -> clean p = true -> starts_nondigit q ->
    pgrow (out l w2) w3 ->
    exists body, adds w (out (bs "endobj") (putstream d data w3)) [obj (w_n w + 1) body] /\
      stream_body body (cipher d (w_n w + 1) data).
  Proof. intros H1 H2 H3 H4 H5 H6. destruct (adds_stream_obj_text w w2 w3 l p q data H1 H2 H3 H4 H5 H6) as (b & A & S & _). eauto. Qed.
End Streams.

Global Arguments bs _ : simpl never.
Global Arguments dec _ : simpl never.
Global Arguments Z.add _ _ : simpl never.
Global Arguments Z.mul _ _ : simpl never.
Global Arguments newobj _ : simpl never.
