From Coq Require Import String ZArith List Bool Lia.
From Verif Require Import Base Crypto MemModel.
Import ListNotations.
Open Scope Z_scope.

(** C86: producing a document leaves the data it was given alone, so that the same font bytes, templates, images, metadata and attachments
    serve several documents, one after the other or at the same time. *)

(** ** Specification *)
(** what a document may share with another one: a byte slice, an image description *)
Inductive cell := Bytes_ (r : ref) | Image_ (i : Z).

(** the step of the document looks at the cell *)
Definition involves (st : step) (c : cell) : Prop :=
  match st, c with
  | (PutAttachment _ r | PutFontFile _ _ _ _ r | PutSoftMask _ r | PutPalette _ r | PutTemplate _ r | PutImported _ _ r | PutXmp _ r), Bytes_ x => x = r
  | PutImage _ i r, Bytes_ x => x = r
  | (PutImage _ i _ | SameImage _ i | NameImage i), Image_ x => x = i
  | _, _ => False
  end.
(** ... and may change it: in a protected document fonts, image data, masks and metadata, and without compression palettes and templates;
    in any document a Type1 font that is not compressed, imported objects, and the number in an image description *)
Definition alters (s : settings) (st : step) (c : cell) : Prop :=
  let protected := set_key s <> None in
  match st, c with
  | PutFontFile _ z _ l2 r, Bytes_ x => x = r /\ (protected \/ (z = false /\ 0 < l2))
  | (PutImage _ _ r | PutSoftMask _ r | PutXmp _ r), Bytes_ x => x = r /\ protected
  | (PutPalette _ r | PutTemplate _ r), Bytes_ x => x = r /\ protected /\ set_compress s = false
  | PutImported _ _ r, Bytes_ x => x = r
  | (PutImage _ i _ | SameImage _ i), Image_ x => x = i
  | _, _ => False
  end.
Definition same_cell (m m' : mem) (c : cell) : Prop := match c with Bytes_ r => buf m' r = buf m r | Image_ i => num m' i = num m i end.

Definition of_doc {A} (d : Z) (l : list (Z * A)) : list A := map snd (filter (fun e => fst e =? d) l).
Definition only {A} (d : Z) (l : list (Z * A)) : list (Z * A) := filter (fun e => fst e =? d) l.

Section Mem.
  Variable md5 zlib : bytes -> bytes.
  Notation do := (MemModel.do md5 zlib).
  Notation run := (MemModel.run md5 zlib).

  Lemma shared_same s n r m c : (c = Bytes_ r -> set_key s = None) -> same_cell m (snd (put_shared md5 s n r m)) c.
  Proof.
    intros H. unfold put_shared. destruct (set_key s) as [k|] eqn:E; [|destruct c; reflexivity].
    destruct c as [x|i]; [|reflexivity]. cbn. destruct (Z.eqb_spec x r); [|reflexivity]. subst. discriminate (H eq_refl).
  Qed.
  Lemma not_some (s : settings) : ~ set_key s <> None -> set_key s = None.
  Proof. destruct (set_key s); [intros H; exfalso; apply H; discriminate|reflexivity]. Qed.

  Lemma step_same s st m c : ~ alters s st c -> same_cell m (snd (do s st m)) c.
  Proof.
    intros H. assert (R : forall m c, same_cell m m c) by (intros ? [|]; reflexivity).
    destruct st as [n r|n b|n z l1 l2 r|n i r|n i|n r|n r|i|n r|n refs r|n r]; cbn [MemModel.do].
    - apply R.
    - apply R.
    - destruct (negb z && (0 <? l2)) eqn:E.
      + unfold put_raw. destruct ((6 <=? l1) && (l1 + 12 <=? l2) && (l2 <=? Z.of_nat (List.length (buf m r)))); [|apply R].
        assert (Hc : c <> Bytes_ r). { intros ->. apply H. cbn. split; [reflexivity|right]. apply andb_prop in E as (E1 & E2). split; [destruct z; [discriminate|reflexivity]|lia]. }
        destruct (set_key s); cbn; (destruct c as [x|]; [cbn; destruct (Z.eqb_spec x r); [congruence|reflexivity]|reflexivity]).
      + apply shared_same. intros ->. apply not_some. intros X. apply H. cbn. tauto.
    - destruct c as [x|x].
      + change (same_cell (number i n m) (snd (put_shared md5 s n r (number i n m))) (Bytes_ x)). apply shared_same. intros [= ->]. apply not_some. intros X. apply H. cbn. tauto.
      + assert (x <> i) by (intros ->; apply H; reflexivity). unfold put_shared. destruct (set_key s); cbn; destruct (Z.eqb_spec x i); congruence.
    - destruct c as [x|x]; [reflexivity|]. cbn. destruct (Z.eqb_spec x i); [|reflexivity]. exfalso. apply H. assumption.
    - apply shared_same. intros ->. apply not_some. intros X. apply H. cbn. tauto.
    - destruct (set_compress s) eqn:E; [apply R|]. apply shared_same. intros ->. apply not_some. intros X. apply H. cbn. tauto.
    - apply R.
    - destruct (set_compress s) eqn:E; [apply R|]. apply shared_same. intros ->. apply not_some. intros X. apply H. cbn. tauto.
    - destruct c as [x|x]; [|reflexivity]. cbn. destruct (Z.eqb_spec x r); [|reflexivity]. exfalso. apply H. assumption.
    - destruct (buf m r); [apply R|]. apply shared_same. intros ->. apply not_some. intros X. apply H. cbn. tauto.
  Qed.

  (** ** What nobody may change is as before, after any documents in any order *)
  Theorem C86_kept :
    forall (set : Z -> settings) (sched : schedule) (m : mem) (c : cell),
      (forall d st, In (d, st) sched -> ~ alters (set d) st c) -> same_cell m (snd (run set sched m)) c.
  Proof.
    intros set sched. induction sched as [|[d st] rest IH]; intros m c H; [destruct c; reflexivity|].
    cbn [MemModel.run]. pose proof (step_same (set d) st m c (H d st (or_introl eq_refl))) as S.
    destruct (do (set d) st m) as [o m1]. cbn [snd] in S.
    specialize (IH m1 c (fun d' st' Hi => H d' st' (or_intror Hi))).
    destruct (run set rest m1) as [o2 m2]. cbn [snd] in *. destruct c; cbn in *; congruence.
  Qed.

  (** the caller's slices: documents without protection, compressed fonts, nothing imported *)
  Definition harmless (s : settings) (st : step) : Prop :=
    set_key s = None /\ match st with PutFontFile _ z _ l2 _ => z = true \/ l2 <= 0 | PutImported _ _ _ => False | _ => True end.
  Corollary C86_unprotected :
    forall (set : Z -> settings) (sched : schedule) (m : mem) (r : ref),
      (forall d st, In (d, st) sched -> harmless (set d) st) -> buf (snd (run set sched m)) r = buf m r.
  Proof.
    intros set sched m r H. apply (C86_kept set sched m (Bytes_ r)). intros d st Hi A. destruct (H d st Hi) as [K S].
    destruct st; cbn in A, S; try tauto; destruct A as [_ A]; try tauto.
    destruct A as [A|[-> A]]; [tauto|]. destruct S as [S|S]; [discriminate|lia].
  Qed.

  (** ** Documents that share only what they do not change come out as if each were alone, whatever the schedule *)
  Definition agree (P : cell -> Prop) (m m' : mem) : Prop := forall c, P c -> same_cell m m' c.

  Lemma shared_agree s n r m m' : buf m' r = buf m r -> fst (put_shared md5 s n r m') = fst (put_shared md5 s n r m).
  Proof. intros H. unfold put_shared. rewrite H. destruct (set_key s); reflexivity. Qed.
  Lemma step_agree s st m m' (P : cell -> Prop) :
    (forall c, involves st c -> P c) -> agree P m m' ->
    fst (do s st m') = fst (do s st m) /\ agree P (snd (do s st m)) (snd (do s st m')).
  Proof.
    intros Hi Ha.
    assert (B : forall r, involves st (Bytes_ r) -> buf m' r = buf m r) by (intros r X; exact (Ha (Bytes_ r) (Hi _ X))).
    assert (St : forall r b, agree P (store r b m) (store r b m')).
    { intros r b [x|i] Hc; cbn; [destruct (x =? r); [reflexivity|exact (Ha (Bytes_ x) Hc)]|exact (Ha (Image_ i) Hc)]. }
    assert (Sh : forall n r, buf m' r = buf m r -> fst (put_shared md5 s n r m') = fst (put_shared md5 s n r m) /\ agree P (snd (put_shared md5 s n r m)) (snd (put_shared md5 s n r m'))).
    { intros n r E. split; [apply shared_agree; exact E|]. unfold put_shared. destruct (set_key s); [|exact Ha]. cbn [snd]. rewrite E. apply St. }
    destruct st as [n r|n b|n z l1 l2 r|n i r|n i|n r|n r|i|n r|n refs r|n r]; cbn [MemModel.do].
    - rewrite (B r eq_refl). split; [reflexivity|exact Ha].
    - split; [reflexivity|exact Ha].
    - destruct (negb z && (0 <? l2)); [|apply Sh, B; reflexivity].
      unfold put_raw. rewrite (B r eq_refl). destruct ((6 <=? l1) && (l1 + 12 <=? l2) && (l2 <=? Z.of_nat (List.length (buf m r)))); [|split; [reflexivity|exact Ha]].
      destruct (set_key s); (split; [reflexivity|apply St]).
    - assert (N : agree P (number i n m) (number i n m')).
      { intros [x|x] Hc; cbn; [exact (Ha (Bytes_ x) Hc)|destruct (x =? i); [reflexivity|exact (Ha (Image_ x) Hc)]]. }
      unfold put_shared. cbn [buf number]. rewrite (B r eq_refl). destruct (set_key s); (split; [reflexivity|]); [|exact N].
      cbn [snd]. intros [x|x] Hc; cbn; [destruct (x =? r); [reflexivity|exact (Ha (Bytes_ x) Hc)]|exact (N (Image_ x) Hc)].
    - split; [reflexivity|]. intros [x|x] Hc; cbn; [exact (Ha (Bytes_ x) Hc)|destruct (x =? i); [reflexivity|exact (Ha (Image_ x) Hc)]].
    - apply Sh, B; reflexivity.
    - destruct (set_compress s); [rewrite (B r eq_refl); split; [reflexivity|exact Ha]|apply Sh, B; reflexivity].
    - split; [|exact Ha]. cbn. pose proof (Ha (Image_ i) (Hi (Image_ i) eq_refl)) as E. cbn in E. now rewrite E.
    - destruct (set_compress s); [rewrite (B r eq_refl); split; [reflexivity|exact Ha]|apply Sh, B; reflexivity].
    - rewrite (B r eq_refl). split; [reflexivity|apply St].
    - rewrite (B r eq_refl). destruct (buf m r) eqn:E; [split; [reflexivity|exact Ha]|]. apply Sh, B. reflexivity.
  Qed.

  Lemma of_doc_app {A} d (a b : list (Z * A)) : of_doc d (a ++ b) = of_doc d a ++ of_doc d b.
  Proof. unfold of_doc. rewrite filter_app, map_app. reflexivity. Qed.
  Lemma of_doc_same {A} d (o : list A) : of_doc d (map (pair d) o) = o.
  Proof. unfold of_doc. induction o as [|x o IH]; [reflexivity|]. cbn. rewrite Z.eqb_refl. cbn. now rewrite IH. Qed.
  Lemma of_doc_other {A} d d' (o : list A) : d' <> d -> of_doc d (map (pair d') o) = [].
  Proof. intros H. unfold of_doc. induction o as [|x o IH]; [reflexivity|]. cbn. destruct (Z.eqb_spec d' d); [contradiction|exact IH]. Qed.

  Theorem C86_every_schedule_partial :
    forall (set : Z -> settings) (sched : schedule) (m : mem) (d : Z),
      (forall d' st st' c, In (d', st') sched -> d' <> d -> In (d, st) sched -> involves st c -> ~ alters (set d') st' c) ->
      of_doc d (fst (run set sched m)) = of_doc d (fst (run set (only d sched) m)).
  Proof.
    intros set sched m d H.
    set (P := fun c => exists st, In (d, st) sched /\ involves st c).
    assert (G : forall rest, (forall e, In e rest -> In e sched) -> forall m1 m2, agree P m1 m2 ->
       of_doc d (fst (run set rest m2)) = of_doc d (fst (run set (only d rest) m1))).
    { induction rest as [|[d' st] rest IH]; intros Hs m1 m2 A; [reflexivity|].
      assert (Hs' : forall e, In e rest -> In e sched) by (intros e X; apply Hs; right; exact X).
      cbn [MemModel.run only filter fst]. destruct (Z.eqb_spec d' d) as [->|Hd].
      - assert (I : forall c, involves st c -> P c) by (intros c X; exists st; split; [apply Hs; left; reflexivity|exact X]).
        destruct (step_agree (set d) st m1 m2 P I A) as [E A2].
        cbn [MemModel.run]. destruct (do (set d) st m2) as [o2 m2'], (do (set d) st m1) as [o1 m1']. cbn [fst snd] in E, A2. subst o2.
        specialize (IH Hs' m1' m2' A2). unfold only in IH.
        destruct (run set rest m2') as [q2 ?], (run set (filter (fun e : Z * step => fst e =? d) rest) m1') as [q1 ?]. cbn [fst] in *.
        rewrite !of_doc_app, IH. reflexivity.
      - assert (A2 : agree P m1 (snd (do (set d') st m2))).
        { intros c (st0 & Hi & Hv). pose proof (A c (ex_intro _ st0 (conj Hi Hv))) as E1.
          pose proof (step_same (set d') st m2 c (H d' st0 st c (Hs _ (or_introl eq_refl)) Hd Hi Hv)) as E2. destruct c; cbn in *; congruence. }
        destruct (do (set d') st m2) as [o2 m2']. cbn [snd] in A2. specialize (IH Hs' m1 m2' A2). unfold only in IH.
        destruct (run set rest m2') as [q2 ?]. cbn [fst] in *. rewrite of_doc_app, of_doc_other by exact Hd. exact IH. }
    apply (G sched (fun e X => X) m m). intros c _. destruct c; reflexivity.
  Qed.

  (** the usual case: documents without protection that share fonts, templates, metadata and attachments, but no images *)
  Corollary C86_shared_partial :
    forall (set : Z -> settings) (sched : schedule) (m : mem) (d : Z),
      (forall d' st, In (d', st) sched -> d' <> d -> harmless (set d') st) ->
      (forall d' st st' i, In (d', st') sched -> d' <> d -> In (d, st) sched -> involves st (Image_ i) -> ~ involves st' (Image_ i)) ->
      of_doc d (fst (run set sched m)) = of_doc d (fst (run set (only d sched) m)).
  Proof.
    intros set sched m d H1 H2. apply C86_every_schedule_partial. intros d' st st' c Hi' Hd Hi Hv A.
    destruct (H1 d' st' Hi' Hd) as [K S]. destruct c as [x|i].
    - destruct st'; cbn in A, S; try tauto; destruct A as [_ A]; try tauto. destruct A as [A|[-> A]]; [tauto|]. destruct S as [S|S]; [discriminate|lia].
    - apply (H2 d' st st' i Hi' Hd Hi Hv). destruct st'; cbn in A |- *; tauto.
  Qed.

  (** ** What the streams of a document say *)
  (** the data meant: what the caller gave, compressed where the document compresses it *)
  Definition meant (s : settings) (m : mem) (st : step) : option (Z * bytes) :=
    match st with
    | PutAttachment n r => Some (n, zlib (buf m r))
    | PutPage n b => Some (n, b)
    | PutFontFile n _ _ _ r => Some (n, buf m r)
    | PutImage n _ r | PutSoftMask n r => Some (n, buf m r)
    | PutPalette n r | PutTemplate n r => Some (n, if set_compress s then zlib (buf m r) else buf m r)
    | PutXmp n r => match buf m r with [] => None | b => Some (n, b) end
    | SameImage _ _ | NameImage _ | PutImported _ _ _ => None
    end.
  (** the reader of a protected document decrypts *)
  Definition read_stream (s : settings) (w : written) : option (Z * bytes) :=
    match w with Stream n b => Some (n, std_crypt md5 (set_key s) n b) | _ => None end.
  Fixpoint somes {A} (l : list (option A)) : list A := match l with [] => [] | Some x :: l => x :: somes l | None :: l => somes l end.

  Lemma somes_app {A} (a b : list (option A)) : somes (a ++ b) = somes a ++ somes b.
  Proof. induction a as [|[x|] a IH]; [reflexivity|cbn; now rewrite IH|exact IH]. Qed.
  Lemma shared_read s n r m : map (read_stream s) (fst (put_shared md5 s n r m)) = [Some (n, buf m r)].
  Proof.
    unfold put_shared. destruct (set_key s) eqn:E; cbn [fst map read_stream]; rewrite E.
    - rewrite std_crypt_invol. reflexivity.
    - reflexivity.
  Qed.
  Lemma fresh_read s n b m : map (read_stream s) (fst (put_fresh md5 s n b m)) = [Some (n, b)].
  Proof. unfold put_fresh. cbn [fst map read_stream]. rewrite std_crypt_invol. reflexivity. Qed.

  (** a document alone, each of the slices it changes used once: a reader finds what was meant, in order *)
  Theorem C86_contents_partial :
    forall (s : settings) (steps : list step) (m : mem),
      (forall n l1 l2 r, In (PutFontFile n false l1 l2 r) steps -> l2 <= 0) ->
      (forall before st after r, steps = before ++ st :: after -> alters s st (Bytes_ r) -> Forall (fun st' => ~ involves st' (Bytes_ r)) after) ->
      somes (map (read_stream s) (of_doc 0 (fst (run (fun _ => s) (map (pair 0) steps) m)))) = somes (map (meant s m) steps).
  Proof.
    intros s steps. induction steps as [|st rest IH]; intros m Hz Ho; [reflexivity|].
    cbn [map MemModel.run].
    assert (Hz' : forall n l1 l2 r, In (PutFontFile n false l1 l2 r) rest -> l2 <= 0) by (intros; eapply Hz; right; eassumption).
    assert (Ho' : forall before st0 after r, rest = before ++ st0 :: after -> alters s st0 (Bytes_ r) -> Forall (fun st' => ~ involves st' (Bytes_ r)) after).
    { intros before st0 after r E. apply (Ho (st :: before) st0 after r). now rewrite E. }
    assert (O : somes (map (read_stream s) (fst (do s st m))) = somes [meant s m st]).
    { destruct st as [n r|n b|n z l1 l2 r|n i r|n i|n r|n r|i|n r|n refs r|n r]; cbn [MemModel.do meant];
        try (rewrite shared_read; reflexivity); try (rewrite fresh_read; reflexivity); try reflexivity.
      - destruct (negb z && (0 <? l2)) eqn:E; [|rewrite shared_read; reflexivity].
        apply andb_prop in E as (E1 & E2). destruct z; [discriminate|]. pose proof (Hz n l1 l2 r (or_introl eq_refl)). lia.
      - destruct (set_compress s); [rewrite fresh_read|rewrite shared_read]; reflexivity.
      - destruct (set_compress s); [rewrite fresh_read|rewrite shared_read]; reflexivity.
      - destruct (buf m r) as [|x l] eqn:E; [reflexivity|]. rewrite shared_read, E. reflexivity. }
    assert (M : map (meant s (snd (do s st m))) rest = map (meant s m) rest).
    { apply map_ext_in. intros st' Hi.
      assert (B : forall r, involves st' (Bytes_ r) -> buf (snd (do s st m)) r = buf m r).
      { intros r Hv. apply (step_same s st m (Bytes_ r)). intros A. pose proof (Ho [] st rest r eq_refl A) as F.
        rewrite Forall_forall in F. exact (F st' Hi Hv). }
      destruct st'; cbn [meant]; try reflexivity; rewrite (B _ eq_refl); reflexivity. }
    destruct (do s st m) as [o m1]. cbn [fst snd] in O, M. specialize (IH m1 Hz' Ho').
    destruct (run (fun _ => s) (map (pair 0) rest) m1) as [o2 m2]. cbn [fst] in *.
    rewrite of_doc_app, of_doc_same, map_app, somes_app, IH, M. etransitivity; [apply f_equal2; [exact O|reflexivity]|].
    change (meant s m st :: map (meant s m) rest) with ([meant s m st] ++ map (meant s m) rest). rewrite somes_app. reflexivity.
  Qed.
End Mem.
Print Assumptions C86_kept.
Print Assumptions C86_unprotected.
Print Assumptions C86_every_schedule_partial.
Print Assumptions C86_shared_partial.
Print Assumptions C86_contents_partial.

(** ** Where the data is not left alone *)
Definition font_bytes : bytes := bs "a compressed font".
Definition mem0 : mem := {| buf := fun r => if r =? 1 then font_bytes else if r =? 2 then bs "header8 bytes HEADERthe encrypted part...." else []; num := fun _ => 0 |}.
Definition protected_ : settings := {| set_key := Some (bs "12345"); set_compress := true |}.
Definition plain_ : settings := {| set_key := None; set_compress := true |}.
Definition set01 (d : Z) : settings := if d =? 0 then protected_ else plain_.
Definition font_step (n : Z) : step := PutFontFile n true 100 0 1.

(** the full statement: after Output the slices given are as before, and a second document made from them is the one it would be alone *)
Definition data_left_alone : Prop :=
  forall md5 zlib set sched m r, buf (snd (run md5 zlib set sched m)) r = buf m r.
Definition documents_independent : Prop :=
  forall md5 zlib set sched m d, of_doc d (fst (run md5 zlib set sched m)) = of_doc d (fst (run md5 zlib set (only d sched) m)).

(** a protected document (0) is produced with a font given as bytes; then a document without protection (1) with the same bytes: what it
    contains is not the font any more *)
Definition two_docs : schedule := [(0, font_step 5); (1, font_step 5)].
Theorem C86_protected_refuted :
  ~ data_left_alone /\ ~ documents_independent /\
  of_doc 1 (fst (run md5_sum (fun b => b) set01 (only 1 two_docs) mem0)) = [Stream 5 font_bytes] /\
  exists b, of_doc 1 (fst (run md5_sum (fun b => b) set01 two_docs mem0)) = [Stream 5 b] /\ b <> font_bytes.
Proof.
  split; [|split; [|split]].
  - intros H. specialize (H md5_sum (fun b => b) set01 two_docs mem0 1). vm_compute in H. discriminate H.
  - intros H. specialize (H md5_sum (fun b => b) set01 two_docs mem0 1). vm_compute in H. discriminate H.
  - vm_compute. reflexivity.
  - eexists. split; [vm_compute; reflexivity|]. intros H. vm_compute in H. discriminate H.
Qed.
Print Assumptions C86_protected_refuted.

(** within one protected document: two faces made from the same bytes; the second cannot be read *)
Theorem C86_same_document_refuted :
  exists steps, let s := protected_ in
    somes (map (read_stream md5_sum s) (of_doc 0 (fst (run md5_sum (fun b => b) (fun _ => s) (map (pair 0) steps) mem0)))) <> somes (map (meant (fun b => b) s mem0) steps) /\
    somes (map (meant (fun b => b) s mem0) steps) = [(5, font_bytes); (7, font_bytes)].
Proof. exists [font_step 5; font_step 7]. split; [intros H; vm_compute in H; discriminate H|vm_compute; reflexivity]. Qed.
Print Assumptions C86_same_document_refuted.

(** without protection: a Type1 font that is not compressed is damaged in the caller's slice *)
Definition raw_doc : schedule := [(1, PutFontFile 5 false 14 40 2)].
Theorem C86_raw_type1_refuted : ~ (forall md5 zlib sched m r, buf (snd (run md5 zlib (fun _ => plain_) sched m)) r = buf m r).
Proof. intros H. specialize (H md5_sum (fun b => b) raw_doc mem0 2). vm_compute in H. discriminate H. Qed.
Print Assumptions C86_raw_type1_refuted.

(** at the same time: two documents without protection use a template with an image; the description of the image is shared, and one
    document writes the object number of the other in its dictionary *)
Definition at_once : schedule := [(1, PutImage 5 77 1); (2, PutImage 9 77 1); (1, NameImage 77); (2, NameImage 77)].
Theorem C86_at_once_refuted :
  ~ (forall md5 zlib sched m d, of_doc d (fst (run md5 zlib (fun _ => plain_) sched m)) = of_doc d (fst (run md5 zlib (fun _ => plain_) (only d sched) m))) /\
  of_doc 1 (fst (run md5_sum (fun b => b) (fun _ => plain_) (only 1 at_once) mem0)) = [Stream 5 font_bytes; Name 77 5] /\
  of_doc 1 (fst (run md5_sum (fun b => b) (fun _ => plain_) at_once mem0)) = [Stream 5 font_bytes; Name 77 9].
Proof.
  split; [|split; vm_compute; reflexivity]. intros H. specialize (H md5_sum (fun b => b) at_once mem0 1). vm_compute in H. discriminate H.
Qed.
Print Assumptions C86_at_once_refuted.

(** ** The hypotheses are met *)
(** two documents at the same time with one font, one template and one attachment *)
Definition shared_docs : schedule :=
  [(1, PutAttachment 3 2); (2, PutPage 3 (bs "page")); (2, font_step 5); (1, PutPage 4 (bs "other")); (1, font_step 6); (2, PutTemplate 7 2); (1, PutTemplate 8 2)].
Example shared_docs_ok d : of_doc d (fst (run md5_sum (fun b => b) (fun _ => plain_) shared_docs mem0)) = of_doc d (fst (run md5_sum (fun b => b) (fun _ => plain_) (only d shared_docs) mem0)).
Proof.
  apply C86_shared_partial.
  - intros d' st H _. split; [reflexivity|]. cbn in H. repeat (destruct H as [H|H]; [injection H as <- <-; cbn; auto|]). contradiction.
  - intros d' st st' i H _ H2 Hv. cbn in H2. repeat (destruct H2 as [H2|H2]; [injection H2 as _ <-; cbn in Hv; contradiction|]). contradiction.
Qed.
(** a protected document with one font and one template *)
Example protected_ok : let s := protected_ in
  somes (map (read_stream md5_sum s) (of_doc 0 (fst (run md5_sum (fun b => b) (fun _ => s) (map (pair 0) [font_step 5; PutTemplate 8 2; PutTemplate 9 2]) mem0))))
  = [(5, font_bytes); (8, buf mem0 2); (9, buf mem0 2)].
Proof.
  cbv zeta. rewrite (C86_contents_partial md5_sum (fun b => b) protected_ [font_step 5; PutTemplate 8 2; PutTemplate 9 2] mem0).
  - reflexivity.
  - intros n l1 l2 r H. cbn in H. repeat (destruct H as [H|H]; [discriminate H|]). contradiction.
  - intros before st after r E A. destruct before as [|b1 [|b2 [|b3 [|]]]]; try discriminate E; cbn in E; injection E; intros; subst; cbn in A;
      try (destruct A as [_ [_ A]]; discriminate A).
    destruct A as [-> _]. repeat constructor; cbn; lia.
Qed.
