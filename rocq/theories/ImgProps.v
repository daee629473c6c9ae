(** C80: images. *)
From Verif Require Import Base PngModel ImgModel ImgSpec.
From Coq Require Import String.
Open Scope Z_scope.
Notation length := List.length.

Section Proofs.
  Context {num place : Type} (e : env num).
  Notation st := (st num place). Notation step := (step (place := place) e). Notation run := (run (place := place) e). Notation reachable := (reachable (place := place) e).

  (** every name stands for a place of its own; every image drawn has a name and is still there *)
  Definition wf (s : st) : Prop :=
    (forall n p, m_images s n = Some p -> (p < length (m_pics s))%nat) /\
    (forall n m p, m_images s n = Some p -> m_images s m = Some p -> n = m) /\
    (forall p i, nth_error (m_pics s) p = Some i -> exists d k b dpi, holds e d k b (p_body i) dpi /\ ident e (p_body i) dpi = inl (p_id i)) /\
    (forall p i pl, In (p, i, pl) (m_drawn s) -> exists n j, m_images s n = Some p /\ nth_error (m_pics s) p = Some j /\ same_image i j).

  Lemma low_lc : forall t, low t = map lc t.
  Proof. reflexivity. Qed.
  Lemma after_dot_spec : forall f t, after_dot f = Some t <-> extension f t.
  Proof.
    induction f as [|c f IH]; intros t; cbn [after_dot].
    - split; [discriminate|]. intros (p & E & _). destruct p; discriminate E.
    - destruct (after_dot f) as [u|] eqn:E.
      + split.
        * intros [= <-]. destruct (proj1 (IH u) eq_refl) as (p & -> & N). exists (c :: p). split; [reflexivity|exact N].
        * intros (p & F & N). destruct p as [|x p]; cbn in F; injection F as -> F.
          -- exfalso. destruct (proj1 (IH u) eq_refl) as (q & G & _). apply N. rewrite <- F, G. apply in_or_app. right. now left.
          -- apply IH. exists p. split; [exact F|exact N].
      + assert (Nd : ~ In 46 f).
        { intros I. clear -I E IH. apply in_split in I as (a & b & ->). revert E. clear. induction a as [|x a IHa]; cbn [app after_dot].
          - destruct (after_dot b); discriminate.
          - destruct (after_dot (a ++ 46 :: b)); [discriminate|]. now intros _; apply IHa. }
        destruct (c =? 46) eqn:C.
        * apply Z.eqb_eq in C as ->. split.
          -- intros [= <-]. exists []. split; [reflexivity|exact Nd].
          -- intros (p & F & N). destruct p as [|x p]; cbn in F; injection F; [intros ->; reflexivity|].
             intros G _. exfalso. apply Nd. rewrite G. apply in_or_app. right. now left.
        * split; [discriminate|]. intros (p & F & N). destruct p as [|x p]; cbn in F; injection F.
          -- intros _ ->. discriminate C.
          -- intros G _. exfalso. apply Nd. rewrite G. apply in_or_app. right. now left.
  Qed.

  (** what a call's parser gives is what the contents hold *)
  Definition parsed (ty : bytes) (readdpi : bool) (r : got) : outcome ((body * num) + bytes) :=
    let ty := low ty in
    let ty := if beqb ty (bs "jpeg") then bs "jpg" else ty in
    if beqb ty (bs "jpg") then Ret (parse_jpg e r)
    else if beqb ty (bs "png") then parse_png_reader e readdpi r
    else if beqb ty (bs "gif") then parse_gif e r
    else Ret (inr (bs "unsupported image type: " ++ ty)).
  Lemma parse_stream_ok d b i dpi : parse_stream e d b = Ret (inl (i, dpi)) <->
    exists f, parse_png (inflate e) (deflate e) (itoa e) d b = Ret (f, false) /\ i = png_body f /\ dpi = png_dpi e (i_dpi f).
  Proof.
    unfold parse_stream. destruct (parse_png _ _ _ d b) as [[f bad]| |]; cbn [obind].
    - destruct bad; split.
      + discriminate.
      + intros (g & [=] & _).
      + intros [= <- <-]. exists f. repeat split.
      + intros (g & [= <-] & -> & ->). reflexivity.
    - split; [discriminate|intros (g & [=] & _)].
    - split; [discriminate|intros (g & [=] & _)].
  Qed.
  Lemma parse_jpg_ok b i dpi : parse_jpg e (inl b) = inl (i, dpi) <->
    exists w h m cs, jpeg e b = inl (w, h, m) /\ space m = Some cs /\ i = jpeg_body w h cs b /\ dpi = png_dpi e None.
  Proof.
    unfold parse_jpg. destruct (jpeg e b) as [[[w h] m]|x].
    - destruct m; cbv zeta; split; try discriminate; try (intros [= <- <-]; exists w, h; eexists; eexists; repeat split; reflexivity);
        intros (w' & h' & m' & cs & [= <- <- <-] & S & -> & ->); cbn in S; try discriminate S; injection S as <-; reflexivity.
    - split; [discriminate|]. intros (w & h & m & cs & [=] & _).
  Qed.
  Lemma parsed_says ty k d b i dpi : says ty k -> holds e d k b i dpi -> parsed ty d (inl b) = Ret (inl (i, dpi)).
  Proof.
    intros S H. unfold parsed. change (low ty) with (map lc ty). destruct H as [b w h m cs J C|b f P|b p f G P]; cbn [says] in S.
    - assert (Q : parse_jpg e (inl b) = inl (jpeg_body w h cs b, png_dpi e None)) by (apply parse_jpg_ok; exists w, h, m, cs; auto).
      destruct S as [-> | ->]; cbv [beqb]; cbn - [parse_jpg]; now rewrite Q.
    - rewrite S. cbn - [parse_png_reader]. cbn [parse_png_reader]. apply parse_stream_ok. exists f. auto.
    - rewrite S. cbn - [parse_gif]. cbn [parse_gif]. rewrite G. apply parse_stream_ok. exists f. auto.
  Qed.
  Lemma parsed_holds ty d r i dpi : parsed ty d r = Ret (inl (i, dpi)) -> exists k b, r = inl b /\ says ty k /\ holds e d k b i dpi.
  Proof.
    unfold parsed. change (low ty) with (map lc ty). intros H.
    assert (J : beqb (if beqb (map lc ty) (bs "jpeg") then bs "jpg" else map lc ty) (bs "jpg") = true -> says ty Jpg).
    { destruct (beqb (map lc ty) (bs "jpeg")) eqn:E; intros F; [right; now apply beqb_eq|left; now apply beqb_eq]. }
    destruct (beqb (if beqb (map lc ty) (bs "jpeg") then bs "jpg" else map lc ty) (bs "jpg")) eqn:E1.
    - specialize (J eq_refl). destruct r as [b|x]; [|discriminate H]. injection H as H. apply parse_jpg_ok in H as (w & h & m & cs & A & B & -> & ->).
      exists Jpg, b. split; [reflexivity|]. split; [exact J|]. now apply (holds_jpg e d b w h m cs).
    - clear J. destruct (beqb (map lc ty) (bs "jpeg")) eqn:E0; [vm_compute in E1; discriminate E1|].
      destruct (beqb (map lc ty) (bs "png")) eqn:E2.
      + destruct r as [b|x]; [|discriminate H]. cbn [parse_png_reader] in H. apply parse_stream_ok in H as (f & P & -> & ->).
        exists Png, b. split; [reflexivity|]. split; [now apply beqb_eq|]. now apply holds_png.
      + destruct (beqb (map lc ty) (bs "gif")) eqn:E3; [|discriminate H].
        destruct r as [b|x]; [|discriminate H]. cbn [parse_gif] in H. destruct (gif e b) as [p|x] eqn:G; [|discriminate H].
        apply parse_stream_ok in H as (f & P & -> & ->). exists Gif, b. split; [reflexivity|]. split; [now apply beqb_eq|]. now apply (holds_gif e d b p f).
  Qed.

  (** the three ways a registration ends *)
  Inductive reg (name : bytes) (s : st) : outcome (st * option nat) -> Prop :=
  | reg_err x : reg name s (Ret (with_err x s, None))
  | reg_off : m_err s <> None -> reg name s (Ret (s, None))
  | reg_known p : m_images s name = Some p -> reg name s (Ret (s, Some p))
  | reg_new d k b i dpi x : m_err s = None -> m_images s name = None -> holds e d k b i dpi -> ident e i dpi = inl x ->
      reg name s (Ret ({| m_err := None; m_images := put (m_images s) name (length (m_pics s)); m_pics := m_pics s ++ [{| p_body := i; p_dpi := dpi; p_id := x |}]; m_drawn := m_drawn s |}, Some (length (m_pics s))))
  | reg_panic d b : parse_png (inflate e) (deflate e) (itoa e) d b = Panic -> reg name s Panic
  | reg_fuel d b : parse_png (inflate e) (deflate e) (itoa e) d b = OutOfFuel -> reg name s OutOfFuel.
  Lemma register_reader_eq name ty d r (s : st) : ty <> [] -> register_reader e name ty d r s =
    match m_err s with Some _ => Ret (s, None) | None => match m_images s name with Some p => Ret (s, Some p) | None =>
    obind (parsed ty d r) (fun x => match x with inr x => Ret (with_err x s, None) | inl (b, dpi) => match ident e b dpi with inr x => Ret (with_err x s, None) | inl i =>
      Ret ({| m_err := None; m_images := put (m_images s) name (length (m_pics s)); m_pics := m_pics s ++ [{| p_body := b; p_dpi := dpi; p_id := i |}]; m_drawn := m_drawn s |}, Some (length (m_pics s))) end end) end end.
  Proof. intros N. unfold register_reader, parsed. destruct ty as [|c t]; [congruence|]. reflexivity. Qed.
  Lemma parsed_stuck ty d r : (parsed ty d r = Panic -> exists d b, parse_png (inflate e) (deflate e) (itoa e) d b = Panic) /\
                              (parsed ty d r = OutOfFuel -> exists d b, parse_png (inflate e) (deflate e) (itoa e) d b = OutOfFuel).
  Proof.
    assert (S : forall d b, (parse_stream e d b = Panic -> exists d b, parse_png (inflate e) (deflate e) (itoa e) d b = Panic) /\
                            (parse_stream e d b = OutOfFuel -> exists d b, parse_png (inflate e) (deflate e) (itoa e) d b = OutOfFuel)).
    { intros d' b. unfold parse_stream. split; destruct (parse_png _ _ _ d' b) as [[f bad]| |] eqn:E; cbn [obind]; try discriminate; intros _; now exists d', b. }
    unfold parsed. cbv zeta. repeat match goal with |- context [if ?c then _ else _] => destruct c end; try (split; discriminate).
    all: destruct r as [b|x]; cbn [parse_png_reader parse_gif]; try (split; discriminate); try apply S.
    all: destruct (gif e b); try (split; discriminate); apply S.
  Qed.
  Lemma reg_reader name ty d r s : reg name s (register_reader e name ty d r s).
  Proof.
    destruct ty as [|c t].
    - unfold register_reader. destruct (m_err s) eqn:E; [apply reg_off; congruence|]. destruct (m_images s name) eqn:I; [now apply reg_known|]. apply reg_err.
    - rewrite register_reader_eq by discriminate. destruct (m_err s) eqn:E; [apply reg_off; congruence|]. destruct (m_images s name) eqn:I; [now apply reg_known|].
      destruct (parsed (c :: t) d r) as [[[b dpi]|x]| |] eqn:P; cbn [obind].
      + destruct (ident e b dpi) as [i|x] eqn:Q; [|apply reg_err]. apply parsed_holds in P as (k & f & -> & _ & H). now apply (reg_new name s d k f b dpi i).
      + apply reg_err.
      + apply parsed_stuck in P as (d' & b' & P). now apply (reg_panic _ _ d' b').
      + apply parsed_stuck in P as (d' & b' & P). now apply (reg_fuel _ _ d' b').
  Qed.
  Lemma reg_file name ty d o s : reg name s (register_file e name ty d o s).
  Proof.
    unfold register_file. destruct (m_images s name) eqn:I; [now apply reg_known|]. destruct o as [r|x]; [|apply reg_err].
    destruct ty; [destruct (after_dot name); [|apply reg_err]|]; apply reg_reader.
  Qed.

  (** what a call about a name does *)
  Lemma step_about c name s : about c = Some name -> exists R, reg name s R /\
    step c s = match draws c with
               | None => R
               | Some pl => match m_err s with Some _ => Ret (s, None) | None =>
                   obind R (fun '(s, p) => match m_err s with Some _ => Ret (s, None) | None =>
                     match p with None => Panic | Some p => match nth_error (m_pics s) p with None => Panic
                     | Some i => Ret ({| m_err := m_err s; m_images := m_images s; m_pics := m_pics s; m_drawn := m_drawn s ++ [(p, i, pl)] |}, None) end end end) end
               end.
  Proof.
    destruct c; cbn [about]; intros [= <-]; eexists; (split; [|reflexivity]); try apply reg_reader; apply reg_file.
  Qed.

  Lemma nth_app_l {T} (l l' : list T) p i : nth_error l p = Some i -> nth_error (l ++ l') p = Some i.
  Proof. intros H. rewrite nth_error_app1; [exact H|]. apply nth_error_Some. congruence. Qed.
  Lemma wf_err x s : wf s -> wf (with_err x s).
  Proof. intros (A & B & C & D). repeat split; auto. Qed.
  Lemma wf_new name s d k b i dpi x : wf s -> m_images s name = None -> holds e d k b i dpi -> ident e i dpi = inl x ->
    wf {| m_err := None; m_images := put (m_images s) name (length (m_pics s)); m_pics := m_pics s ++ [{| p_body := i; p_dpi := dpi; p_id := x |}]; m_drawn := m_drawn s |}.
  Proof.
    intros (A & B & C & D) N H I. unfold wf. cbn [m_images m_pics m_drawn m_err]. split; [|split; [|split]].
    - intros n p E. unfold put in E. rewrite app_length. cbn. destruct (beqb n name); [injection E as <-; lia|]. apply A in E. lia.
    - intros n m p. unfold put. destruct (beqb n name) eqn:E1; destruct (beqb m name) eqn:E2.
      + intros _ _. apply beqb_eq in E1, E2. congruence.
      + intros [= <-] F. apply A in F. lia.
      + intros F [= <-]. apply A in F. lia.
      + apply B.
    - intros p j E. destruct (Nat.lt_ge_cases p (length (m_pics s))).
      + rewrite nth_error_app1 in E by lia. now apply (C p).
      + rewrite nth_error_app2 in E by lia. destruct (p - length (m_pics s))%nat as [|q]; [|destruct q; discriminate E].
        injection E as <-. exists d, k, b, dpi. auto.
    - intros p j pl E. apply D in E as (n & j' & E1 & E2 & E3). exists n, j'. split; [|split; [now apply nth_app_l|exact E3]].
      unfold put. destruct (beqb n name) eqn:F; [|exact E1]. apply beqb_eq in F. congruence.
  Qed.
  Lemma same_refl (i : pic num) : same_image i i.
  Proof. split; reflexivity. Qed.
  Lemma nth_set (l : list (pic num)) p i q : nth_error l p = Some i -> forall j,
    nth_error (firstn p l ++ j :: skipn (S p) l) q = if Nat.eqb q p then Some j else nth_error l q.
  Proof.
    intros E j. assert (L : (p < length l)%nat) by (apply nth_error_Some; congruence).
    assert (F : length (firstn p l) = p) by (rewrite firstn_length; lia).
    destruct (Nat.eqb_spec q p) as [->|N].
    - rewrite nth_error_app2 by lia. rewrite F, Nat.sub_diag. reflexivity.
    - destruct (Nat.lt_ge_cases q p).
      + rewrite nth_error_app1 by lia. revert q l E L F N H. induction p as [|p IH]; intros [|q] [|x l] E L F N H; cbn in *; try lia; try reflexivity. apply IH; auto; lia.
      + rewrite nth_error_app2 by lia. rewrite F. destruct (q - p)%nat as [|r] eqn:R; [lia|]. cbn [nth_error].
        rewrite <- (firstn_skipn (S p) l) at 2. rewrite nth_error_app2 by (rewrite firstn_length; lia). rewrite firstn_length. f_equal. lia.
  Qed.

  Lemma wf_step c s s' o : wf s -> step c s = Ret (s', o) -> wf s'.
  Proof.
    intros W H. destruct (about c) as [name|] eqn:Ab.
    - destruct (step_about c name s Ab) as (R & HR & E). rewrite E in H. clear E.
      assert (WR : forall t p, R = Ret (t, p) -> wf t).
      { intros t p ->. inversion HR; subst; try exact W; [].  eapply wf_new; eauto. }
      destruct (draws c) as [pl|]; [|eauto].
      destruct (m_err s); [now injection H as <- <-|].
      destruct R as [[t p]| |] eqn:ER; cbn [obind] in H; try discriminate H. specialize (WR t p eq_refl).
      destruct (m_err t); [now injection H as <- <-|]. destruct p as [p|]; [|discriminate H].
      destruct (nth_error (m_pics t) p) as [i|] eqn:EN; [|discriminate H]. injection H as <- <-.
      assert (Nm : exists n, m_images t n = Some p).
      { inversion HR; subst; exists name; cbn [m_images]; auto. unfold put. now rewrite beqb_refl. }
      destruct WR as (A & B & C & D). unfold wf. cbn [m_images m_pics m_drawn]. repeat split; auto.
      intros q j pl' I. apply in_app_or in I as [I|[[= <- <- <-]|[]]]; [now apply (D q j pl')|].
      destruct Nm as (n & Nm). exists n, i. split; [exact Nm|]. split; [exact EN|apply same_refl].
    - destruct c; cbn [about] in Ab; try discriminate Ab; cbn [ImgModel.step] in H.
      + unfold set_dpi in H. destruct (nth_error (m_pics s) p) as [i|] eqn:E; [|discriminate H]. cbn [obind] in H. injection H as <- <-.
        destruct W as (A & B & C & D). unfold wf. cbn [m_images m_pics m_drawn]. split; [|split; [|split]].
        * intros n q F. apply A in F. apply nth_error_Some. rewrite (nth_set _ _ _ _ E). destruct (Nat.eqb q p); [discriminate|now apply nth_error_Some].
        * exact B.
        * intros q j. rewrite (nth_set _ _ _ _ E). destruct (Nat.eqb_spec q p) as [->|N]; [|apply C]. intros [= <-]. cbn [p_body p_id]. now apply (C p).
        * intros q j pl I. apply D in I as (n & j' & I1 & I2 & I3). exists n. rewrite (nth_set _ _ _ _ E). destruct (Nat.eqb_spec q p) as [->|N].
          -- rewrite E in I2. injection I2 as <-. eexists. split; [exact I1|]. split; [reflexivity|]. exact I3.
          -- exists j'. auto.
      + injection H as <- <-. unfold type_from_mime. repeat match goal with |- context [if ?c then _ else _] => destruct c end; cbn [fst]; auto.
      + injection H as <- <-. destruct (m_err s); auto using wf_err.
      + injection H as <- <-. destruct W as (A & B & C & D). repeat split; auto.
  Qed.
  Lemma run_app cs cs' : forall s, run (cs ++ cs') s = obind (run cs s) (run cs').
  Proof.
    induction cs as [|c cs IH]; intros s; [reflexivity|]. cbn [app ImgModel.run]. destruct (ImgModel.step e c s) as [[t o]| |]; cbn [obind]; [apply IH|reflexivity|reflexivity].
  Qed.
  Lemma wf_run cs : forall s s', wf s -> run cs s = Ret s' -> wf s'.
  Proof.
    induction cs as [|c cs IH]; intros s s' W H; cbn [ImgModel.run] in H; [now injection H as <-|].
    destruct (ImgModel.step e c s) as [[t o]| |] eqn:E; cbn [obind] in H; try discriminate H. eapply IH; [|exact H]. eapply wf_step; eauto.
  Qed.
  Lemma reachable_wf s : reachable s -> wf s.
  Proof.
    intros (cs & H). eapply wf_run; [|exact H]. repeat split; cbn; try discriminate.
    - intros [|p] i; discriminate.
    - intros p i pl [].
  Qed.

  (** A name that stands for nothing yet, and contents of an image of the type that is said: the image is registered under the
      name, with the size, colours and data of the contents, and no other name changes. *)
  Theorem C80_first s c name ty d b k i dpi x : reachable s -> m_err s = None -> get_info name s = None ->
    offers c name ty d b -> says ty k -> holds e d k b i dpi -> ident e i dpi = inl x ->
    exists s' o, step c s = Ret (s', o) /\ m_err s' = None /\ image_of s' name = Some {| p_body := i; p_dpi := dpi; p_id := x |} /\
      (forall n, n <> name -> image_of s' n = image_of s n) /\ (draws c = None -> o = get_info name s').
  Proof.
    intros Rs Er No Of Sa Ho Id. pose proof (reachable_wf s Rs) as (A & B & C & D). unfold get_info in No.
    assert (P : parsed ty d (inl b) = Ret (inl (i, dpi))) by (now apply (parsed_says ty k)).
    set (s1 := {| m_err := None; m_images := put (m_images s) name (length (m_pics s)); m_pics := m_pics s ++ [{| p_body := i; p_dpi := dpi; p_id := x |}]; m_drawn := m_drawn s |}).
    assert (Nt : ty <> []).
    { destruct Of; auto; intros ->; destruct k; cbn in Sa; try destruct Sa; discriminate. }
    assert (RR : register_reader e name ty d (inl b) s = Ret (s1, Some (length (m_pics s)))).
    { rewrite register_reader_eq by exact Nt. rewrite Er, No, P. cbn [obind]. now rewrite Id. }
    assert (RF : forall ty' o, (ty' = ty \/ ty' = [] /\ extension name ty) -> o = inl (inl b) -> register_file e name ty' d o s = Ret (s1, Some (length (m_pics s)))).
    { intros ty' o H ->. unfold register_file. rewrite No. destruct H as [->|[-> X]]; [destruct ty; [congruence|exact RR]|].
      apply after_dot_spec in X. rewrite X. exact RR. }
    assert (Ok : forall (s' : st) dr, m_images s' = m_images s1 -> m_pics s' = m_pics s1 -> m_drawn s' = dr ->
      image_of s' name = Some {| p_body := i; p_dpi := dpi; p_id := x |} /\ (forall n, n <> name -> image_of s' n = image_of s n) /\ get_info name s' = Some (length (m_pics s))).
    { intros s' dr E1 E2 _. unfold image_of, get_info. rewrite E1, E2. cbn [s1 m_images m_pics]. unfold put. rewrite beqb_refl.
      split; [rewrite nth_error_app2, Nat.sub_diag by lia; reflexivity|]. split; [|reflexivity].
      intros n Nn. rewrite (proj2 (beqb_neq _ _) Nn). destruct (m_images s n) as [q|] eqn:Q; [|reflexivity]. apply A in Q. now rewrite nth_error_app1 by lia. }
    assert (G1 : forall c', step c' s = Ret (s1, Some (length (m_pics s))) -> exists s' o, step c' s = Ret (s', o) /\ m_err s' = None /\
      image_of s' name = Some {| p_body := i; p_dpi := dpi; p_id := x |} /\ (forall n, n <> name -> image_of s' n = image_of s n) /\ (draws c' = None -> o = get_info name s')).
    { intros c' E. exists s1, (Some (length (m_pics s))). destruct (Ok s1 (m_drawn s1) eq_refl eq_refl eq_refl) as (O1 & O2 & O3). repeat split; auto. }
    assert (G2 : forall c' pl, image_options e name (match c' with ImageOptions _ t _ _ _ | Image _ t _ _ => t | _ => [] end) d pl (inl (inl b)) s = step c' s -> draws c' = Some pl ->
      register_file e name (match c' with ImageOptions _ t _ _ _ | Image _ t _ _ => t | _ => [] end) d (inl (inl b)) s = Ret (s1, Some (length (m_pics s))) ->
      exists s' o, step c' s = Ret (s', o) /\ m_err s' = None /\
      image_of s' name = Some {| p_body := i; p_dpi := dpi; p_id := x |} /\ (forall n, n <> name -> image_of s' n = image_of s n) /\ (draws c' = None -> o = get_info name s')).
    { intros c' pl E1 E2 E3. rewrite <- E1. unfold image_options. rewrite Er, E3. cbn [obind]. cbn [s1 m_err m_pics].
      rewrite nth_error_app2, Nat.sub_diag by lia. cbn [nth_error].
      eexists. eexists. split; [reflexivity|]. split; [reflexivity|].
      match goal with |- image_of ?t _ = _ /\ _ => destruct (Ok t (m_drawn t) eq_refl eq_refl eq_refl) as (O1 & O2 & O3) end.
      split; [exact O1|]. split; [exact O2|]. rewrite E2. discriminate. }
    destruct Of; try (apply G1; first [exact RR|apply RF; auto]); (eapply G2; [reflexivity|reflexivity|]; apply RF; auto).
  Qed.

  Definition no_dpi (p : nat) (cs : list (call num place)) : Prop := forall d, ~ In (SetDpi p d) cs.
  (** An image that is registered stays: whatever is called, the name stands for it, with the same contents and identifier; only
      SetDpi of this image changes its resolution. *)
  Lemma keep_step c s s' o name p i : wf s -> get_info name s = Some p -> nth_error (m_pics s) p = Some i -> step c s = Ret (s', o) ->
    get_info name s' = Some p /\ exists i', nth_error (m_pics s') p = Some i' /\ same_image i i' /\ ((forall d, c <> SetDpi p d) -> i' = i).
  Proof.
    intros W G N H. unfold get_info in *. destruct (about c) as [name'|] eqn:Ab.
    - destruct (step_about c name' s Ab) as (R & HR & E). rewrite E in H. clear E.
      assert (WR : forall t q, R = Ret (t, q) -> m_images t name = Some p /\ nth_error (m_pics t) p = Some i).
      { intros t q ->. inversion HR; subst; cbn [m_images m_pics with_err]; auto.
        split; [|now apply nth_app_l]. unfold put. destruct (beqb name name') eqn:F; [apply beqb_eq in F; congruence|exact G]. }
      assert (K : m_images s' name = Some p /\ nth_error (m_pics s') p = Some i).
      { destruct (draws c) as [pl|]; [|eauto]. destruct (m_err s); [now injection H as <- <-|].
        destruct R as [[t q]| |]; cbn [obind] in H; try discriminate H. specialize (WR t q eq_refl).
        destruct (m_err t); [now injection H as <- <-|]. destruct q as [q|]; [|discriminate H].
        destruct (nth_error (m_pics t) q); [|discriminate H]. injection H as <- <-. exact WR. }
      destruct K as [K1 K2]. split; [exact K1|]. exists i. split; [exact K2|]. split; [apply same_refl|reflexivity].
    - destruct c; cbn [about] in Ab; try discriminate Ab; cbn [ImgModel.step] in H.
      + unfold set_dpi in H. destruct (nth_error (m_pics s) p0) as [i0|] eqn:E; [|discriminate H]. cbn [obind] in H. injection H as <- <-.
        cbn [m_images m_pics]. split; [exact G|]. rewrite (nth_set _ _ _ _ E). destruct (Nat.eqb_spec p p0) as [->|Ne].
        * rewrite E in N. injection N as <-. eexists. split; [reflexivity|]. split; [split; reflexivity|]. intros Q. now destruct (Q d).
        * exists i. split; [exact N|]. split; [apply same_refl|reflexivity].
      + injection H as <- <-. unfold type_from_mime. repeat match goal with |- context [if ?c then _ else _] => destruct c end; cbn [fst].
        all: try (split; [exact G|exists i; split; [exact N|split; [apply same_refl|reflexivity]]]).
      + injection H as <- <-. destruct (m_err s); (split; [exact G|exists i; split; [exact N|split; [apply same_refl|reflexivity]]]).
      + injection H as <- <-. split; [exact G|exists i; split; [exact N|split; [apply same_refl|reflexivity]]].
  Qed.
  Theorem C80_keeps s cs s' name p i : reachable s -> get_info name s = Some p -> image_of s name = Some i -> run cs s = Ret s' ->
    get_info name s' = Some p /\ exists i', image_of s' name = Some i' /\ same_image i i' /\ (no_dpi p cs -> i' = i).
  Proof.
    intros Rs G I H. apply reachable_wf in Rs. unfold image_of in I. rewrite G in I.
    revert s i Rs G I H. induction cs as [|c cs IH]; intros s i W G N H; cbn [ImgModel.run] in H.
    - injection H as <-. split; [exact G|]. unfold image_of. rewrite G. exists i. split; [exact N|]. split; [apply same_refl|reflexivity].
    - destruct (ImgModel.step e c s) as [[t o]| |] eqn:E; cbn [obind] in H; try discriminate H.
      destruct (keep_step c s t o name p i W G N E) as (G' & j & N' & S1 & D1).
      destruct (IH t j (wf_step c s t o W E) G' N' H) as (G2 & i' & N2 & S2 & D2).
      split; [exact G2|]. exists i'. split; [exact N2|]. split; [destruct S1, S2; split; congruence|].
      intros Nd. rewrite D2 by (intros d I; apply (Nd d); now right). apply D1. intros d ->. apply (Nd d). now left.
  Qed.

  (** SetDpi reaches the image it is called on, under its name, and no other. *)
  Theorem C80_dpi s name p i d : reachable s -> get_info name s = Some p -> image_of s name = Some i -> exists s',
    step (SetDpi p d) s = Ret (s', None) /\ image_of s' name = Some {| p_body := p_body i; p_dpi := d; p_id := p_id i |} /\
    (forall n, n <> name -> image_of s' n = image_of s n) /\ m_drawn s' = m_drawn s /\ m_err s' = m_err s.
  Proof.
    intros Rs G I. apply reachable_wf in Rs as (A & B & _). unfold image_of, get_info in *. rewrite G in I.
    cbn [ImgModel.step]. unfold set_dpi. rewrite I. cbn [obind]. eexists. split; [reflexivity|]. cbn [m_images m_pics m_drawn m_err].
    rewrite G. rewrite (nth_set _ _ _ _ I), Nat.eqb_refl. split; [reflexivity|]. split; [|split; reflexivity].
    intros n Nn. destruct (m_images s n) as [q|] eqn:Q; [|reflexivity]. rewrite (nth_set _ _ _ _ I). destruct (Nat.eqb_spec q p) as [->|_]; [|reflexivity].
    destruct Nn. eauto.
  Qed.

  (** A call about a name either reports an error or leaves the name registered, and it returns what GetImageInfo returns from then on.
      When it reports an error it changes nothing else. *)
  Theorem C80_reported s c name s' o : about c = Some name -> step c s = Ret (s', o) ->
    (m_err s' <> None /\ m_images s' = m_images s /\ m_pics s' = m_pics s /\ m_drawn s' = m_drawn s) \/
    (get_info name s' <> None /\ (draws c = None -> o = get_info name s')).
  Proof.
    intros Ab H. destruct (step_about c name s Ab) as (R & HR & E). rewrite E in H. clear E.
    assert (K : forall t q, R = Ret (t, q) -> (m_err t <> None /\ q = None /\ m_images t = m_images s /\ m_pics t = m_pics s /\ m_drawn t = m_drawn s) \/ (m_images t name <> None /\ q = m_images t name)).
    { intros t q ->. inversion HR; subst; cbn [m_images m_pics m_drawn m_err with_err].
      - left. repeat split. discriminate.
      - left. auto.
      - right. rewrite H1. split; [discriminate|reflexivity].
      - right. unfold put. rewrite beqb_refl. split; [discriminate|reflexivity]. }
    unfold get_info. destruct (draws c) as [pl|].
    - destruct (m_err s) eqn:Es; [injection H as <- <-; left; split; [congruence|auto]|].
      destruct R as [[t q]| |]; cbn [obind] in H; try discriminate H. specialize (K t q eq_refl).
      destruct (m_err t) eqn:Et.
      + injection H as <- <-. destruct K as [(K1 & K2 & K3)|(K1 & K2)]; [left; split; [congruence|exact K3]|right; split; [exact K1|discriminate]].
      + destruct q as [q|]; [|discriminate H]. destruct (nth_error (m_pics t) q); [|discriminate H]. injection H as <- <-.
        destruct K as [(K1 & _)|(K1 & K2)]; [congruence|]. right. split; [exact K1|discriminate].
    - destruct (K s' o H) as [(K1 & K2 & K3)|(K1 & K2)]; [left; auto|right; auto].
  Qed.

  (** Image draws the image of the name, as it is then, once; a name that is registered needs no file and no type. *)
  Theorem C80_draws s c name pl s' o : reachable s -> about c = Some name -> draws c = Some pl -> step c s = Ret (s', o) -> m_err s' = None ->
    exists p i, get_info name s' = Some p /\ image_of s' name = Some i /\ m_drawn s' = m_drawn s ++ [(p, i, pl)].
  Proof.
    intros Rs Ab Dr H Er. destruct (step_about c name s Ab) as (R & HR & E). rewrite E, Dr in H. clear E.
    destruct (m_err s) eqn:Es; [injection H as <- <-; congruence|].
    destruct R as [[t q]| |] eqn:ER; cbn [obind] in H; try discriminate H.
    destruct (m_err t) eqn:Et; [injection H as <- <-; congruence|]. destruct q as [q|]; [|discriminate H].
    destruct (nth_error (m_pics t) q) as [i|] eqn:N; [|discriminate H]. injection H as <- <-.
    exists q, i. unfold image_of, get_info. cbn [m_images m_pics m_drawn].
    assert (Q : m_images t name = Some q /\ m_drawn t = m_drawn s).
    { inversion HR; subst; auto. cbn [m_images m_drawn]. unfold put. now rewrite beqb_refl. }
    destruct Q as [-> ->]. auto.
  Qed.
  Theorem C80_known s c name pl i : reachable s -> m_err s = None -> image_of s name = Some i -> about c = Some name -> draws c = Some pl ->
    exists p, get_info name s = Some p /\
      step c s = Ret ({| m_err := None; m_images := m_images s; m_pics := m_pics s; m_drawn := m_drawn s ++ [(p, i, pl)] |}, None).
  Proof.
    intros Rs Er I Ab Dr. unfold image_of, get_info in *. destruct (m_images s name) as [p|] eqn:G; [|discriminate I]. exists p. split; [reflexivity|].
    destruct c; cbn in Ab, Dr; try discriminate Dr; injection Ab as ->; injection Dr as ->; cbn [ImgModel.step]; unfold image_options, register_file; rewrite Er, G; cbn [obind]; now rewrite Er, I.
  Qed.
  (** What was drawn stays in the document: a name still stands for it, with the same identifier and contents. *)
  Theorem C80_drawn s p i pl : reachable s -> In (p, i, pl) (m_drawn s) -> exists name j, get_info name s = Some p /\ image_of s name = Some j /\ same_image i j.
  Proof.
    intros Rs I. apply reachable_wf in Rs as (_ & _ & _ & D). apply D in I as (n & j & I1 & I2 & I3). exists n, j. unfold image_of, get_info. rewrite I1. auto.
  Qed.
  (** Everything registered was read from some contents, and its identifier is that of the contents and the resolution found. *)
  Theorem C80_origin s name i : reachable s -> image_of s name = Some i -> exists d k b dpi, holds e d k b (p_body i) dpi /\ ident e (p_body i) dpi = inl (p_id i).
  Proof.
    intros Rs I. apply reachable_wf in Rs as (_ & _ & C & _). unfold image_of, get_info in I. destruct (m_images s name) as [p|]; [|discriminate I]. now apply (C p).
  Qed.
  (** No call crashes, except on a PNG (or GIF) whose reading crashes (C60). *)
  Theorem C80_no_crash s c : reachable s -> (forall p d, c = SetDpi p d -> exists name, get_info name s = Some p) ->
    (forall d b, exists r, parse_png (inflate e) (deflate e) (itoa e) d b = Ret r) -> exists s' o, step c s = Ret (s', o).
  Proof.
    intros Rs V T. pose proof (reachable_wf s Rs) as W. destruct (about c) as [name|] eqn:Ab.
    - destruct (step_about c name s Ab) as (R & HR & E). rewrite E. clear E.
      assert (K : exists t q, R = Ret (t, q) /\ (m_err t <> None \/ exists p i, q = Some p /\ nth_error (m_pics t) p = Some i)).
      { inversion HR; subst; try (eexists; eexists; split; [reflexivity|]; left; cbn; congruence).
        - eexists; eexists. split; [reflexivity|]. right. apply (proj1 W) in H. destruct (nth_error (m_pics s) p) as [i|] eqn:N; [now exists p, i|]. apply nth_error_None in N. lia.
        - eexists; eexists. split; [reflexivity|]. right. cbn [m_pics]. eexists; eexists. split; [reflexivity|]. rewrite nth_error_app2, Nat.sub_diag by lia. reflexivity.
        - destruct (T d b) as (r & X). congruence.
        - destruct (T d b) as (r & X). congruence. }
      destruct K as (t & q & -> & K). destruct (draws c) as [pl|]; [|now exists t, q].
      destruct (m_err s); [now exists s, None|]. cbn [obind]. destruct (m_err t); [now exists t, None|].
      destruct K as [K|(p & i & -> & N)]; [congruence|]. rewrite N. eexists; eexists; reflexivity.
    - destruct c; cbn [about] in Ab; try discriminate Ab; cbn [ImgModel.step]; try (eexists; eexists; reflexivity).
      destruct (V p d eq_refl) as (name & G). apply (proj1 W) in G. unfold set_dpi. destruct (nth_error (m_pics s) p) eqn:N; [cbn [obind]; eexists; eexists; reflexivity|]. apply nth_error_None in N. lia.
  Qed.
  (** ImageTypeFromMime gives a type the other calls take, for the four MIME types, or reports. *)
  Theorem C80_mime m (s : st) : let '(s', ty) := type_from_mime m s in
    match ty with
    | [] => m_err s' <> None /\ ~ In m [bs "image/png"; bs "image/jpg"; bs "image/jpeg"; bs "image/gif"]
    | _ => s' = s /\ exists k, says ty k /\ match k with Png => m = bs "image/png" | Gif => m = bs "image/gif" | Jpg => m = bs "image/jpg" \/ m = bs "image/jpeg" end
    end.
  Proof.
    unfold type_from_mime. destruct (beqb m (bs "image/png")) eqn:E1; [apply beqb_eq in E1; split; [reflexivity|]; exists Png; split; [reflexivity|exact E1]|].
    destruct (beqb m (bs "image/jpg")) eqn:E2; [apply beqb_eq in E2; split; [reflexivity|]; exists Jpg; split; [now left|now left]|].
    destruct (beqb m (bs "image/jpeg")) eqn:E3; [apply beqb_eq in E3; split; [reflexivity|]; exists Jpg; split; [now left|now right]|].
    destruct (beqb m (bs "image/gif")) eqn:E4; [apply beqb_eq in E4; split; [reflexivity|]; exists Gif; split; [reflexivity|exact E4]|].
    cbv beta iota. split; [destruct (m_err s) eqn:E; cbn; congruence|].
    intros [<-|[<-|[<-|[<-|[]]]]]; [rewrite beqb_refl in E1|rewrite beqb_refl in E2|rewrite beqb_refl in E3|rewrite beqb_refl in E4]; discriminate.
  Qed.
End Proofs.

Section Cases.
  Let en : env Z := {| jpeg := fun b => match b with [w; h; 7] => inl (w, h, YCbCrModel) | _ => inr (bs "not JPEG") end; gif := fun _ => inr (bs "not GIF");
    inflate := fun _ => ZBroken; deflate := fun b => b; itoa := fun _ => []; png_dpi := fun o => match o with Some (_, n) => n | None => 72 end;
    ident := fun b d => inl (d :: b_data b) |}.
  Let cs : list (call Z Z) := [RegisterImageReader (bs "logo") (bs "JPEG") (inl [30; 20; 7]); Image (bs "logo") [] 5 (inr (bs "no file")); SetDpi 0 300;
    Image (bs "dir/x.Jpg") [] 6 (inl (inl [8; 9; 7])); Image (bs "logo") (bs "gif") 7 (inl (inl [1; 1; 7]))].
  Let after (n : nat) : st Z Z := match run en (firstn n cs) new with Ret s => s | _ => new end.
  Lemma after_ok n : match run en (firstn n cs) new with Ret _ => true | _ => false end = true -> run en (firstn n cs) new = Ret (after n).
  Proof. unfold after. destruct (run en (firstn n cs) new); [reflexivity|discriminate|discriminate]. Qed.
  Lemma after_r n : match run en (firstn n cs) new with Ret _ => true | _ => false end = true -> reachable en (after n).
  Proof. intros H. exists (firstn n cs). now apply after_ok. Qed.
  (** a logo that is drawn, given a resolution and drawn again *)
  Example C80_case : exists s, run en cs new = Ret s /\ m_err s = None /\
    image_of s (bs "logo") = Some {| p_body := jpeg_body 30 20 (bs "DeviceRGB") [30; 20; 7]; p_dpi := 300; p_id := [72; 30; 20; 7] |} /\
    map (fun '(p, i, pl) => (p, p_dpi i, p_id i, pl)) (m_drawn s) = [(0%nat, 72, [72; 30; 20; 7], 5); (1%nat, 72, [72; 8; 9; 7], 6); (0%nat, 300, [72; 30; 20; 7], 7)].
  Proof. exists (after 5). split; [apply (after_ok 5); vm_compute; reflexivity|]. repeat split; vm_compute; reflexivity. Qed.
  Example C80_first_case : exists s' o, step en (Image (bs "dir/x.Jpg") [] 6 (inl (inl [8; 9; 7]))) (after 3) = Ret (s', o) /\ m_err s' = None /\
    image_of s' (bs "dir/x.Jpg") = Some {| p_body := jpeg_body 8 9 (bs "DeviceRGB") [8; 9; 7]; p_dpi := 72; p_id := [72; 8; 9; 7] |}.
  Proof.
    destruct (C80_first en (after 3) (Image (bs "dir/x.Jpg") [] 6 (inl (inl [8; 9; 7]))) (bs "dir/x.Jpg") (bs "Jpg") false [8; 9; 7] Jpg (jpeg_body 8 9 (bs "DeviceRGB") [8; 9; 7]) 72 [72; 8; 9; 7])
      as (s' & o & A & B & C & _); [apply after_r; vm_compute; reflexivity|vm_compute; reflexivity|vm_compute; reflexivity| |left; reflexivity|exact (holds_jpg en false [8; 9; 7] 8 9 YCbCrModel (bs "DeviceRGB") eq_refl eq_refl)|reflexivity|].
    2: exists s', o; exact (conj A (conj B C)).
    constructor. exists (bs "dir/x"). split; [reflexivity|]. vm_compute. intuition discriminate.
  Qed.
  Example C80_keeps_case : exists i, image_of (after 1) (bs "logo") = Some i /\ exists i', image_of (after 5) (bs "logo") = Some i' /\ same_image i i'.
  Proof.
    exists {| p_body := jpeg_body 30 20 (bs "DeviceRGB") [30; 20; 7]; p_dpi := 72; p_id := [72; 30; 20; 7] |}. split; [vm_compute; reflexivity|].
    destruct (C80_keeps en (after 1) (skipn 1 cs) (after 5) (bs "logo") 0%nat {| p_body := jpeg_body 30 20 (bs "DeviceRGB") [30; 20; 7]; p_dpi := 72; p_id := [72; 30; 20; 7] |} (after_r 1 ltac:(vm_compute; reflexivity)) ltac:(vm_compute; reflexivity) ltac:(vm_compute; reflexivity)) as (_ & i' & H1 & H2 & _).
    { pose proof (after_ok 5 ltac:(vm_compute; reflexivity)) as H. change (firstn 5 cs) with (firstn 1 cs ++ skipn 1 cs) in H. rewrite run_app in H.
      rewrite (after_ok 1 ltac:(vm_compute; reflexivity)) in H. exact H. }
    exists i'. exact (conj H1 H2).
  Qed.
  (** A call that reports an error keeps the first one: false for RegisterImage and RegisterImageOptions of a file that cannot be opened. *)
  Theorem C80_first_error_refuted : ~ (forall (num place : Type) (e : env num) (s s' : st num place) c o x, m_err s = Some x -> c <> ClearError -> step e c s = Ret (s', o) -> m_err s' = Some x).
  Proof.
    intros H. specialize (H Z Z en {| m_err := Some (bs "first"); m_images := fun _ => None; m_pics := []; m_drawn := [] |} _ (RegisterImage (bs "a.png") [] (inr (bs "no file"))) _ (bs "first") eq_refl ltac:(discriminate) eq_refl).
    discriminate H.
  Qed.
End Cases.
Print Assumptions C80_first.
Print Assumptions C80_keeps.
Print Assumptions C80_dpi.
Print Assumptions C80_reported.
Print Assumptions C80_draws.
Print Assumptions C80_known.
Print Assumptions C80_drawn.
Print Assumptions C80_origin.
Print Assumptions C80_no_crash.
Print Assumptions C80_mime.
Print Assumptions C80_first_error_refuted.
