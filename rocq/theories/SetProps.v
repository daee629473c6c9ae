(** C84 What the caller sets is what the file says. *)
From Verif Require Import Base TextModel TextSpec TextProofs Crypto DocModel DocSpec DocWalk DocFile DocBack DocProps DocProps2 ResSpec CatSpec CatProofs CatProps SetModel SetSpec.
From Coq Require Import String.
Open Scope Z_scope.
Notation length := List.length.
Local Notation "a +++ b" := (List.app a b) (at level 60, right associativity, only parsing).

(** ** Reading *)
Definition regular (n : bytes) : Prop := Forall (fun c => is_white c || is_delimiter c = false) n.
Lemma read_name_app n c t : regular n -> is_white c || is_delimiter c = true -> read_name (n ++ c :: t) = (n, c :: t).
Proof.
  induction 1 as [|x n Hx _ IH]; intros Hc; cbn [app read_name]; [now rewrite Hc|]. rewrite Hx, IH by exact Hc. reflexivity.
Qed.
Lemma read_entries_text l fuel t : Forall (fun e => regular (fst e)) l -> (length l < fuel)%nat ->
  read_entries fuel (List.concat (map (fun e => line (bs "/" +++ fst e +++ bs " (" +++ escape (snd e) +++ bs ")")) l) +++ line (bs ">>") +++ t) = Some l.
Proof.
  revert fuel. induction l as [|[n v] l IH]; intros fuel H Hf; (destruct fuel as [|fuel]; [cbn in Hf; lia|]).
  - reflexivity.
  - assert (H1 := Forall_inv H). apply Forall_inv_tail in H. cbn [fst] in H1. cbn [map List.concat fst snd].
    pose (r := List.concat (map (fun e => line (bs "/" +++ fst e +++ bs " (" +++ escape (snd e) +++ bs ")")) l) +++ line (bs ">>") +++ t).
    match goal with |- read_entries _ ?x = _ => replace x with (47 :: n ++ 32 :: textstring v ++ 10 :: r) end.
    2:{ unfold r, textstring, line. change (bs "/") with [47]. change (bs " (") with [32; 40]. change (bs ")") with [41]. change eol with [10]. rewrite <- !app_assoc. cbn [app]. rewrite <- !app_assoc. reflexivity. }
    cbn [read_entries]. change (skip_white (47 :: ?x)) with (47 :: x). cbv iota beta. change (47 =? 62) with false. change (47 =? 47) with true. cbv iota.
    rewrite read_name_app by (exact H1 || reflexivity).
    change (skip_white (32 :: textstring v ++ 10 :: r)) with (textstring v ++ 10 :: r). rewrite textstring_roundtrip.
    assert (E : read_entries fuel (10 :: r) = read_entries fuel r). { destruct fuel; reflexivity. }
    rewrite E. unfold r. rewrite IH; [reflexivity|exact H|cbn in Hf; lia].
Qed.
Lemma info_text_read l : Forall (fun e => regular (fst e)) l -> read_dictionary (info_text l) = Some l.
Proof.
  intros H. unfold info_text. change (line (bs "<<")) with [60; 60; 10]. cbn [app]. unfold read_dictionary. cbn [skip_white]. change (is_white 60) with false. cbv iota.
  change ((60 =? 60) && (60 =? 60)) with true. cbv iota. match goal with |- read_entries _ (10 :: ?x) = _ => set (r := x) end.
  assert (E : forall k, read_entries k (10 :: r) = read_entries k r) by (intros [|k]; reflexivity). rewrite E. unfold r.
  rewrite <- (app_nil_r (line (bs ">>"))) at 2. rewrite read_entries_text; [reflexivity|exact H|].
  cbn [length]. rewrite app_length. clear H E r. assert (length l <= length (List.concat (map (fun e => line (bs "/" +++ fst e +++ bs " (" +++ escape (snd e) +++ bs ")")) l)))%nat; [|lia].
  induction l as [|e l IH]; [cbn; lia|]. cbn [map List.concat length]. rewrite app_length. unfold line at 1. rewrite app_length. cbn [length eol]. unfold eol. cbn [length]. lia.
Qed.

Lemma text_of_utf16 t : Forall (fun r => scalar r /\ r < 65536) t -> text_of (254 :: 255 :: utf16be t) = Some (Unicode t).
Proof.
  intros H. cbn [text_of]. change ((254 =? 254) && (255 =? 255)) with true. cbv iota.
  assert (E : read_utf16 (utf16be t) = Some t); [|now rewrite E].
  induction H as [|r t [Hs Hr] _ IH]; [reflexivity|]. change (utf16be (r :: t)) with (utf16be_1 r ++ utf16be t)%list. unfold utf16be_1.
  replace (r <? 65536) with true by lia. cbn [app read_utf16]. unfold scalar in Hs.
  replace (r / 256 * 256 + r mod 256) with r by (pose proof (Z.div_mod r 256); lia).
  replace ((55296 <=? r) && (r <? 56320)) with false by lia. replace ((56320 <=? r) && (r <? 57344)) with false by lia. now rewrite IH.
Qed.

(** dates *)
Lemma dec_fuel_length w : forall f n, 0 <= n < 10 ^ Z.of_nat (S w) -> (length (dec_fuel f n []) <= S w)%nat.
Proof.
  induction w as [|w IH]; intros f n H; destruct f as [|f]; cbn [dec_fuel]; try (cbn; lia).
  - replace (n <? 10) with true by (change (10 ^ Z.of_nat 1) with 10 in H; lia). cbn. lia.
  - destruct (n <? 10); [cbn; lia|]. rewrite dec_fuel_acc, app_length. cbn [length].
    assert (length (dec_fuel f (n / 10) []) <= S w)%nat; [|lia]. apply IH. split; [apply Z.div_pos; lia|].
    apply Z.div_lt_upper_bound; [lia|]. rewrite <- Z.pow_succ_r by lia. replace (Z.succ (Z.of_nat (S w))) with (Z.of_nat (S (S w))) by lia. lia.
Qed.
Lemma digits_zeros k s : digits (repeat 48 k ++ s) = digits s.
Proof. unfold digits. induction k as [|k IH]; [reflexivity|]. cbn [repeat app fold_left]. exact IH. Qed.
Lemma digits_dec n : 0 <= n -> digits (dec n) = n.
Proof.
  intros H. unfold dec. replace (n <? 0) with false by lia. pose proof (read_dec_nat n [] H I) as R. rewrite app_nil_r in R. unfold read_dec in R.
  pose proof (dec_nat_digits n) as D. destruct (dec_nat n) as [|c t] eqn:E; [discriminate|].
  assert (X := read_digits_app 0 (c :: t) [] D I). rewrite app_nil_r in X. destruct (is_digit c); [|discriminate R]. rewrite X in R. injection R as R. exact R.
Qed.
Definition number (w : nat) (n : Z) (s : bytes) : Prop := length s = w /\ forallb (fun c => (48 <=? c) && (c <=? 57)) s = true /\ digits s = n.
Lemma padded_number w n : 0 <= n < 10 ^ Z.of_nat (S w) -> number (S w) n (padded (S w) n).
Proof.
  intros H. unfold padded. replace (n <? 0) with false by lia. rewrite Z.abs_eq by lia. cbn [app].
  assert (L : (length (dec n) <= S w)%nat). { unfold dec. replace (n <? 0) with false by lia. now apply dec_fuel_length. }
  split; [|split].
  - rewrite app_length, repeat_length. lia.
  - rewrite forallb_app. apply andb_true_intro. split.
    + apply forallb_forall. intros c Hc. apply repeat_spec in Hc. now subst.
    + apply forallb_forall. intros c Hc. unfold dec in Hc. replace (n <? 0) with false in Hc by lia.
      pose proof (proj1 (Forall_forall _ _) (dec_nat_digits n) c Hc) as X. exact X.
  - rewrite digits_zeros. now apply digits_dec.
Qed.
Definition date_ok (t : date) : Prop :=
  0 <= dt_year t <= 9999 /\ 0 <= dt_month t <= 99 /\ 0 <= dt_day t <= 99 /\ 0 <= dt_hour t <= 99 /\ 0 <= dt_min t <= 99 /\ 0 <= dt_sec t <= 99.
Lemma date_read t : date_ok t ->
  read_date (date_string t) = Some [dt_year t; dt_month t; dt_day t; dt_hour t; dt_min t; dt_sec t].
Proof.
  intros (H1 & H2 & H3 & H4 & H5 & H6).
  destruct (padded_number 3 (dt_year t)) as (L1 & D1 & V1); [change (10 ^ Z.of_nat 4) with 10000; lia|].
  assert (T : forall n, 0 <= n <= 99 -> number 2 n (padded 2 n)) by (intros n Hn; apply padded_number; change (10 ^ Z.of_nat 2) with 100; lia).
  destruct (T _ H2) as (L2 & D2 & V2). destruct (T _ H3) as (L3 & D3 & V3). destruct (T _ H4) as (L4 & D4 & V4).
  destruct (T _ H5) as (L5 & D5 & V5). destruct (T _ H6) as (L6 & D6 & V6). clear T.
  unfold date_string. change (bs "D:") with [68; 58]. cbn [app].
  set (p1 := padded 4 _) in *. set (p2 := padded 2 (dt_month t)) in *. set (p3 := padded 2 (dt_day t)) in *. set (p4 := padded 2 (dt_hour t)) in *.
  set (p5 := padded 2 (dt_min t)) in *. set (p6 := padded 2 (dt_sec t)) in *. clearbody p1 p2 p3 p4 p5 p6.
  unfold read_date. rewrite !app_length, L1, L2, L3, L4, L5, L6. rewrite !forallb_app, D1, D2, D3, D4, D5, D6.
  change ((68 =? 68) && (58 =? 58) && (4 + (2 + (2 + (2 + (2 + 2)))) =? 14)%nat && (true && (true && (true && (true && (true && true)))))) with true. cbv iota.
  destruct p1 as [|a1 [|a2 [|a3 [|a4 [|]]]]]; try discriminate L1.
  destruct p2 as [|b1 [|b2 [|]]]; try discriminate L2. destruct p3 as [|c1 [|c2 [|]]]; try discriminate L3.
  destruct p4 as [|d1 [|d2 [|]]]; try discriminate L4. destruct p5 as [|e1 [|e2 [|]]]; try discriminate L5. destruct p6 as [|f1 [|f2 [|]]]; try discriminate L6.
  cbn [app firstn skipn]. rewrite <- V1, <- V2, <- V3, <- V4, <- V5, <- V6. reflexivity.
Qed.

(** ** The calls *)
Definition text_call (f : field) (c : call) : option (bytes * bool) :=
  match c with SetText g s u => if field_eqb g f then Some (s, u) else None | _ => None end.
Definition display_call (c : call) : option (bytes * bytes) := match c with SetDisplayMode z l => Some (z, l) | _ => None end.
Definition created_call (c : call) : option gotime := match c with SetCreationDate t => Some t | _ => None end.
Definition modified_call (c : call) : option gotime := match c with SetModificationDate t => Some t | _ => None end.
Definition default_created_call (c : call) : option gotime := match c with SetDefaultCreationDate t => Some t | _ => None end.
Definition default_modified_call (c : call) : option gotime := match c with SetDefaultModificationDate t => Some t | _ => None end.
Definition compress_call (c : call) : option bool := match c with SetCompression b => Some b | _ => None end.
Definition default_compress_call (c : call) : option bool := match c with SetDefaultCompression b => Some b | _ => None end.
Definition sort_call (c : call) : option bool := match c with SetCatalogSort b => Some b | _ => None end.
Definition default_sort_call (c : call) : option bool := match c with SetDefaultCatalogSort b => Some b | _ => None end.
Definition script_call (c : call) : option bytes := match c with SetJavascript s => Some s | _ => None end.
Definition or {A} (o : option A) (a : A) : A := match o with Some b => b | None => a end.

Definition kept (p : bytes * bool) (b : bytes) : Prop := if snd p then utf8toutf16 (fst p) true = Ret b else b = fst p.

Lemma run_app h c s : run (h ++ [c]) s = obind (run h s) (step c).
Proof.
  revert s. induction h as [|x h IH]; intros s; cbn [app run]; [cbn [obind]; destruct (step c s); reflexivity|].
  destruct (step x s); cbn [obind]; [apply IH|reflexivity|reflexivity].
Qed.
Lemma last_of_app {A B} (f : A -> option B) h c : last_of f (h ++ [c]) = match f c with Some b => Some b | None => last_of f h end.
Proof.
  induction h as [|x h IH]; cbn [app last_of]; [destruct (f c); reflexivity|]. rewrite IH. destruct (f c); [reflexivity|]. reflexivity.
Qed.
Lemma set_display_other z l s : let s' := set_display z l s in
  s_text s' = s_text s /\ s_created s' = s_created s /\ s_modified s' = s_modified s /\ s_compress s' = s_compress s /\ s_sort s' = s_sort s /\ s_js s' = s_js s /\ s_xmp s' = s_xmp s.
Proof. cbn. unfold set_display. destruct (s_err s); [tauto|]. destruct (among zooms z); [destruct (among layout_modes _)|]; cbn; tauto. Qed.

Lemma step_text c s s' f : step c s = Ret s' ->
  match text_call f c with Some p => kept p (s_text s' f) | None => s_text s' f = s_text s f end.
Proof.
  intros H. destruct c; cbn [step text_call] in *; try (injection H as <-; reflexivity).
  - unfold set_text in H. destruct (field_eqb f0 f) eqn:E.
    + apply field_eqb_eq in E as ->. assert (R : field_eqb f f = true) by now apply field_eqb_eq. unfold kept. cbn [fst snd]. destruct isUTF8.
      * destruct (utf8toutf16 s0 true); [|discriminate|discriminate]. cbn [obind] in H. injection H as <-. cbn [s_text with_text]. now rewrite R.
      * injection H as <-. cbn [s_text with_text]. now rewrite R.
    + assert (R : field_eqb f f0 = false). { destruct (field_eqb f f0) eqn:X; [|reflexivity]. apply field_eqb_eq in X as ->. rewrite <- E. symmetry. now apply field_eqb_eq. }
      destruct isUTF8; [destruct (utf8toutf16 s0 true); [|discriminate|discriminate]; cbn [obind] in H|]; injection H as <-; cbn [s_text with_text]; now rewrite R.
  - injection H as <-. destruct (set_display_other zoom layout s) as (-> & _). reflexivity.
Qed.
Lemma run_text h s s' f : run h s = Ret s' ->
  match last_of (text_call f) h with Some p => kept p (s_text s' f) | None => s_text s' f = s_text s f end.
Proof.
  revert s'. induction h as [|c h IH] using rev_ind; intros s' H; [injection H as <-; reflexivity|].
  rewrite run_app in H. rewrite last_of_app. destruct (run h s) as [s1| |] eqn:E; cbn [obind] in H; try discriminate. specialize (IH s1 eq_refl).
  apply (step_text c s1 s' f) in H. destruct (text_call f c); [exact H|]. rewrite H. exact IH.
Qed.
(** fields that one kind of call assigns *)
Lemma run_last {A} (call_of : call -> option A) (proj : sets -> A) h s s' :
  (forall c s s', step c s = Ret s' -> proj s' = or (call_of c) (proj s)) ->
  run h s = Ret s' -> proj s' = or (last_of call_of h) (proj s).
Proof.
  intros St. revert s'. induction h as [|c h IH] using rev_ind; intros s' H; [injection H as <-; reflexivity|].
  rewrite run_app in H. rewrite last_of_app. destruct (run h s) as [s1| |] eqn:E; cbn [obind] in H; try discriminate. specialize (IH s1 eq_refl).
  rewrite (St _ _ _ H), IH. destruct (call_of c); reflexivity.
Qed.
Lemma set_text_other f str u s s' : set_text f str u s = Ret s' ->
  s_created s' = s_created s /\ s_modified s' = s_modified s /\ s_compress s' = s_compress s /\ s_sort s' = s_sort s /\ s_js s' = s_js s /\ s_xmp s' = s_xmp s.
Proof.
  unfold set_text. destruct u; [destruct (utf8toutf16 str true); [|discriminate|discriminate]; cbn [obind]|]; intros H; injection H as <-; cbn; tauto.
Qed.
Ltac step_field := intros c s s' H; destruct c; cbn [step] in H; try (injection H as <-; reflexivity);
  [destruct (set_text_other _ _ _ _ _ H) as (E2 & E3 & E4 & E5 & E6 & E7); cbn; congruence
  |injection H as <-; match goal with |- context [set_display ?z ?l ?s] => destruct (set_display_other z l s) as (E1 & E2 & E3 & E4 & E5 & E6 & E7) end; cbn [or option_map created_call modified_call compress_call sort_call script_call]; congruence].
Lemma step_created : forall c s s', step c s = Ret s' -> s_created s' = or (created_call c) (s_created s).
Proof. step_field. Qed.
Lemma step_modified : forall c s s', step c s = Ret s' -> s_modified s' = or (modified_call c) (s_modified s).
Proof. step_field. Qed.
Lemma step_compress : forall c s s', step c s = Ret s' -> s_compress s' = or (compress_call c) (s_compress s).
Proof. step_field. Qed.
Lemma step_sort : forall c s s', step c s = Ret s' -> s_sort s' = or (sort_call c) (s_sort s).
Proof. step_field. Qed.
Lemma step_js : forall c s s', step c s = Ret s' -> s_js s' = or (option_map Some (script_call c)) (s_js s).
Proof. step_field. Qed.
Lemma last_of_map {A B C} (f : A -> option B) (g : B -> C) h : last_of (fun c => option_map g (f c)) h = option_map g (last_of f h).
Proof. induction h as [|c h IH]; [reflexivity|]. cbn [last_of]. rewrite IH. destruct (last_of f h); reflexivity. Qed.

(** display mode, as long as no error occurs *)
Definition no_clear (h : list call) : Prop := ~ In ClearError h.
Lemma step_err c s s' : step c s = Ret s' -> c <> ClearError -> s_err s' = false -> s_err s = false.
Proof.
  intros H Hc E. destruct c; cbn [step] in H; try (injection H as <-; first [exact E|discriminate E]); [| |congruence].
  - unfold set_text in H. destruct isUTF8; [destruct (utf8toutf16 _ true); [|discriminate|discriminate]; cbn [obind] in H|]; injection H as <-; exact E.
  - injection H as <-. unfold set_display in E. destruct (s_err s) eqn:X; [now rewrite X in E|reflexivity].
Qed.
Definition layout_meant (l : bytes) : bytes := match l with [] => bs "default" | _ => l end.
Lemma step_display c s s' : step c s = Ret s' -> c <> ClearError -> s_err s' = false ->
  (s_zoom s', s_layout s') = match display_call c with Some (z, l) => (z, layout_meant l) | None => (s_zoom s, s_layout s) end.
Proof.
  intros H Hc E. destruct c; cbn [step display_call] in *; try (injection H as <-; reflexivity).
  - unfold set_text in H. destruct isUTF8; [destruct (utf8toutf16 _ true); [|discriminate|discriminate]; cbn [obind] in H|]; injection H as <-; reflexivity.
  - injection H as <-. unfold set_display in *. destruct (s_err s) eqn:X; [congruence|]. cbv zeta in *. fold (layout_meant layout) in *.
    destruct (among zooms zoom); [|discriminate E]. destruct (among layout_modes (layout_meant layout)); [reflexivity|discriminate E].
Qed.
Lemma run_display h s s' : run h s = Ret s' -> no_clear h -> s_err s' = false ->
  s_err s = false /\ (s_zoom s', s_layout s') = match last_of display_call h with Some (z, l) => (z, layout_meant l) | None => (s_zoom s, s_layout s) end.
Proof.
  revert s'. induction h as [|c h IH] using rev_ind; intros s' H Hn E; [injection H as <-; now split|].
  rewrite run_app in H. rewrite last_of_app. destruct (run h s) as [s1| |] eqn:Er; cbn [obind] in H; try discriminate.
  assert (Hc : c <> ClearError) by (intros ->; apply Hn, in_or_app; right; now left).
  assert (Hh : no_clear h) by (intros X; apply Hn, in_or_app; now left).
  pose proof (step_err _ _ _ H Hc E) as E1. destruct (IH s1 eq_refl Hh E1) as (E0 & D). split; [exact E0|].
  rewrite (step_display _ _ _ H Hc E). destruct (display_call c) as [[z l]|]; [reflexivity|exact D].
Qed.
Lemma defaults_created h : g_created (defaults_after h) = or (last_of default_created_call h) None.
Proof.
  unfold defaults_after. induction h as [|c h IH] using rev_ind; [reflexivity|]. rewrite fold_left_app, last_of_app. cbn [fold_left]. destruct c; cbn; auto.
Qed.
Lemma defaults_modified h : g_modified (defaults_after h) = or (last_of default_modified_call h) None.
Proof.
  unfold defaults_after. induction h as [|c h IH] using rev_ind; [reflexivity|]. rewrite fold_left_app, last_of_app. cbn [fold_left]. destruct c; cbn; auto.
Qed.
Lemma defaults_sort h : g_sort (defaults_after h) = or (last_of default_sort_call h) false.
Proof.
  unfold defaults_after. induction h as [|c h IH] using rev_ind; [reflexivity|]. rewrite fold_left_app, last_of_app. cbn [fold_left]. destruct c; cbn; auto.
Qed.
Lemma defaults_compress h : negb (g_nocompress (defaults_after h)) = or (last_of default_compress_call h) true.
Proof.
  unfold defaults_after. induction h as [|c h IH] using rev_ind; [reflexivity|]. rewrite fold_left_app, last_of_app. cbn [fold_left]. destruct c; cbn; auto using negb_involutive.
Qed.

(** ** The document made by a session: calls [h0] on other documents and defaults, New, then calls [h] *)
Definition session (h0 h : list call) (s : sets) : Prop := exists s0, new (defaults_after h0) = Ret s0 /\ run h s0 = Ret s.
(** the settings [s] are those of document [d], written when the clock shows [now1] resp. [now2] *)
Definition configured {E : env} (s : sets) (now1 now2 : date) (d : doc (e_num E)) : Prop :=
  d_producer d = s_text s Producer /\ d_title d = s_text s Title /\ d_subject d = s_text s Subject /\ d_author d = s_text s Author /\
  d_keywords d = s_text s Keywords /\ d_creator d = s_text s Creator /\
  d_created d = date_string (time_or_now now1 (s_created s)) /\ d_modified d = date_string (time_or_now now2 (s_modified s)) /\
  d_zoom d = s_zoom s /\ d_layout d = s_layout s /\ d_js d = s_js s /\ d_xmp d = s_xmp s /\ d_compress d = s_compress s /\ d_sort d = s_sort s.
(** what was asked for: the last call, else the default *)
Definition asked_text (h : list call) (f : field) : bytes * bool :=
  or (last_of (text_call f) h) (match f with Producer => (bs "FPDF 1.7", true) | _ => ([], false) end).
Definition asked_created (h0 h : list call) (now : date) : date :=
  or (or (last_of created_call h) (or (last_of default_created_call h0) None)) now.
Definition asked_modified (h0 h : list call) (now : date) : date :=
  or (or (last_of modified_call h) (or (last_of default_modified_call h0) None)) now.
Definition asked_display (h : list call) : bytes * bytes :=
  match last_of display_call h with Some (z, l) => (z, layout_meant l) | None => (bs "default", bs "default") end.
Definition field_name (f : field) : bytes :=
  match f with Producer => bs "Producer" | Title => bs "Title" | Subject => bs "Subject" | Author => bs "Author" | Keywords => bs "Keywords" | Creator => bs "Creator" end.

Lemma new_spec g s : new g = Ret s -> s_created s = g_created g /\ s_modified s = g_modified g /\ s_sort s = g_sort g /\ s_compress s = negb (g_nocompress g) /\
  s_js s = None /\ s_xmp s = [] /\ s_err s = false /\ s_zoom s = bs "default" /\ s_layout s = bs "default" /\ s_text s Producer = 254 :: 255 :: utf16be (bs "FPDF 1.7") /\
  (forall f, f <> Producer -> s_text s f = []).
Proof.
  intros H. assert (E : exists t, t = 254 :: 255 :: utf16be (bs "FPDF 1.7") /\ s =
    with_modified (g_modified g) (with_created (g_created g) (with_sort (g_sort g) (with_text Producer t (with_compress (negb (g_nocompress g))
      (set_display (bs "default") (bs "default") {| s_text := fun _ => []; s_zoom := []; s_layout := []; s_created := None; s_modified := None;
              s_compress := false; s_sort := false; s_js := None; s_xmp := []; s_err := false |})))))).
  { eexists. split; [reflexivity|]. unfold new, set_text in H. change (utf8toutf16 (bs "FPDF 1.7") true) with (Ret (254 :: 255 :: utf16be (bs "FPDF 1.7"))) in H.
    cbn [obind] in H. injection H as <-. reflexivity. }
  destruct E as (t & Et & ->). cbn. repeat split; auto. intros f Hf. destruct f; (reflexivity || (exfalso; now apply Hf)).
Qed.
Lemma session_text h0 h s f : session h0 h s -> kept (asked_text h f) (s_text s f).
Proof.
  intros (s0 & N & R). apply (run_text _ _ _ f) in R. unfold asked_text. destruct (last_of (text_call f) h) as [p|]; cbn [or]; [exact R|]. rewrite R.
  apply new_spec in N as (_ & _ & _ & _ & _ & _ & _ & _ & _ & NP & NO).
  destruct f; try (apply NO; discriminate). cbn [kept fst snd]. unfold kept. cbn [fst snd]. rewrite NP. reflexivity.
Qed.
Lemma kept_sees p b t : kept p b -> means (fst p) (snd p) t -> text_of b = Some t.
Proof.
  destruct p as [str u]. cbn [fst snd]. unfold kept. cbn [fst snd]. intros K M. destruct M as [t H|c H].
  - rewrite (utf8toutf16_bmp t true) in K. 2:{ eapply Forall_impl; [|exact H]. cbv beta. unfold scalar. intros; lia. }
    injection K as <-. now apply text_of_utf16.
  - subst b. destruct c as [|x [|y c]]; try reflexivity. cbn [text_of]. destruct (Z.eqb_spec x 254), (Z.eqb_spec y 255); cbn [andb]; try reflexivity.
    subst. cbn in H. congruence.
Qed.
Lemma session_dates h0 h s now : session h0 h s ->
  time_or_now now (s_created s) = asked_created h0 h now /\ time_or_now now (s_modified s) = asked_modified h0 h now.
Proof.
  intros (s0 & N & R). apply new_spec in N as (N1 & N2 & _). unfold asked_created, asked_modified.
  rewrite (run_last _ _ _ _ _ step_created R), (run_last _ _ _ _ _ step_modified R), N1, N2, defaults_created, defaults_modified.
  unfold time_or_now, or. split; [destruct (last_of created_call h) as [[|]|]|destruct (last_of modified_call h) as [[|]|]]; reflexivity.
Qed.
Lemma regular_name f : regular (field_name f).
Proof. destruct f; repeat constructor. Qed.

Section File.
  Context {E : env} (d : doc (e_num E)) (pre : bytes).
  (** the entries of the information dictionary *)
  Definition entry_of (f : field) : bytes := 
    match f with Producer => d_producer d | Title => d_title d | Subject => d_subject d | Author => d_author d | Keywords => d_keywords d | Creator => d_creator d end.
  Lemma info_entries_regular : Forall (fun e => regular (fst e)) (info_entries d).
  Proof.
    unfold info_entries. apply Forall_app. split.
    - apply Forall_forall. intros e He. apply filter_In in He as [He _]. revert e He. apply Forall_forall. repeat constructor.
    - repeat constructor.
  Qed.
  Lemma entry_filter f l r : In f l -> NoDup l -> ~ In (field_name f) (map fst r) ->
    entry (field_name f) (filter (fun e : bytes * bytes => negb (match snd e with [] => true | _ => false end)) (map (fun g => (field_name g, entry_of g)) l) +++ r) =
    match entry_of f with [] => None | b => Some b end.
  Proof.
    intros Hin ND Hr. induction l as [|g l IH]; [contradiction|]. apply NoDup_cons_iff in ND as [Ng ND]. cbn [map filter snd].
    assert (Rr : entry (field_name f) r = None).
    { clear -Hr. induction r as [|[n v] r IH]; [reflexivity|]. cbn [map fst] in Hr. cbn [entry].
      destruct (beqb n (field_name f)) eqn:X; [apply beqb_eq in X; exfalso; apply Hr; now left|]. apply IH. intros Y. apply Hr. now right. }
    destruct Hin as [->|Hin].
    - destruct (entry_of f) as [|x b]; cbn [negb].
      + assert (G : forall l, ~ In f l -> entry (field_name f) (filter (fun e : bytes * bytes => negb (match snd e with [] => true | _ => false end)) (map (fun g => (field_name g, entry_of g)) l) +++ r) = None).
        { clear -Rr. induction l as [|g l IH]; intros Hn; [exact Rr|]. cbn [map filter snd]. assert (Hl : ~ In f l) by (intros X; apply Hn; now right).
          destruct (entry_of g); cbn [negb]; [now apply IH|]. cbn [app entry]. destruct (beqb (field_name g) (field_name f)) eqn:X; [|now apply IH].
          exfalso. apply Hn. left. apply beqb_eq in X. destruct g, f; (reflexivity || discriminate X). }
        now apply G.
      + cbn [app entry]. now rewrite beqb_refl.
    - assert (Hgf : beqb (field_name g) (field_name f) = false).
      { destruct (beqb (field_name g) (field_name f)) eqn:X; [|reflexivity]. apply beqb_eq in X. exfalso. apply Ng. replace g with f; [exact Hin|]. destruct g, f; (reflexivity || discriminate X). }
      destruct (entry_of g); cbn [negb]; [now apply IH|]. cbn [app entry]. rewrite Hgf. now apply IH.
  Qed.
  Lemma info_entry f : entry (field_name f) (info_entries d) = match entry_of f with [] => None | b => Some b end.
  Proof.
    apply (entry_filter f [Producer; Title; Subject; Author; Keywords; Creator] [(bs "CreationDate", d_created d); (bs "ModDate", d_modified d)]).
    - destruct f; cbn; tauto.
    - repeat constructor; cbn; intuition discriminate.
    - destruct f; cbn [map fst]; intros [X|[X|[]]]; discriminate X.
  Qed.
  Lemma info_dates : entry (bs "CreationDate") (info_entries d) = Some (d_created d) /\ entry (bs "ModDate") (info_entries d) = Some (d_modified d).
  Proof.
    assert (G : forall n l r, ~ In n (map fst l) -> entry n (filter (fun e : bytes * bytes => negb (match snd e with [] => true | _ => false end)) l +++ r) = entry n r).
    { intros n l r Hn. induction l as [|[m v] l IH]; [reflexivity|]. cbn [map fst] in Hn. cbn [filter snd]. assert (Hl : ~ In n (map fst l)) by (intros X; apply Hn; now right).
      destruct v; cbn [negb]; [now apply IH|]. cbn [app entry]. destruct (beqb m n) eqn:X; [apply beqb_eq in X; exfalso; apply Hn; now left|now apply IH]. }
    unfold info_entries. split; rewrite G; try reflexivity; cbn [map fst]; intros X; repeat (destruct X as [X|X]; [discriminate X|]); contradiction.
  Qed.
End File.

(** Partial: for documents without protection (the strings of a protected one: C33) and under [resources_sound] *)
Theorem C84_information_partial :
  forall (E : env) (d : doc (e_num E)) (pre : bytes) (h0 h : list call) (s : sets) (now1 now2 : date),
    well_formed d -> finished d pre -> resources_sound d -> d_protect d = None -> zlength (file_of d pre) < 10 ^ 10 ->
    session h0 h s -> configured s now1 now2 d ->
    exists root info body m, trailer_names (file_of d pre) root info /\ object_in (file_of d pre) info body /\ read_dictionary body = Some m /\
      (forall f t, means (fst (asked_text h f)) (snd (asked_text h f)) t -> sees (entry (field_name f) m) t) /\
      (date_ok (asked_created h0 h now1) -> exists b, entry (bs "CreationDate") m = Some b /\
         let t := asked_created h0 h now1 in read_date b = Some [dt_year t; dt_month t; dt_day t; dt_hour t; dt_min t; dt_sec t]) /\
      (date_ok (asked_modified h0 h now2) -> exists b, entry (bs "ModDate") m = Some b /\
         let t := asked_modified h0 h now2 in read_date b = Some [dt_year t; dt_month t; dt_day t; dt_hour t; dt_min t; dt_sec t]).
Proof.
  intros E d pre h0 h s now1 now2 W F RS P Sz Se (C1 & C2 & C3 & C4 & C5 & C6 & Cc & Cm & _).
  destruct (C71_catalog_partial E d pre W F RS Sz) as (n & o & la & js & fs & en & T & OI & ES & _).
  assert (EE : en = info_entries d).
  { clear -ES P. unfold entries_stored in ES. induction ES as [|[a b] [a' b'] l m (H1 & _ & H3) _ IH]; [reflexivity|]. cbn [fst snd] in *. rewrite (H3 P), H1, IH. reflexivity. }
  subst en. exists n, (n - 1), (info_text (info_entries d)), (info_entries d). split; [exact T|]. split; [exact OI|].
  split; [apply info_text_read, info_entries_regular|]. split; [|split].
  - intros f t M. rewrite info_entry. pose proof (session_text _ _ _ f Se) as K. pose proof (kept_sees _ _ _ K M) as S.
    assert (X : entry_of d f = s_text s f) by (destruct f; assumption). rewrite X. destruct (s_text s f) as [|c b]; [|exact S].
    cbn in S. cbn. congruence.
  - intros Ok. exists (d_created d). split; [apply info_dates|]. rewrite Cc. destruct (session_dates h0 h s now1 Se) as (-> & _). now apply date_read.
  - intros Ok. exists (d_modified d). split; [apply info_dates|]. rewrite Cm. destruct (session_dates h0 h s now2 Se) as (_ & ->). now apply date_read.
Qed.
Print Assumptions C84_information_partial.

Theorem C84_view_partial :
  forall (E : env) (d : doc (e_num E)) (pre : bytes) (h0 h : list call) (s : sets) (now1 now2 : date),
    well_formed d -> finished d pre -> resources_sound d -> d_protect d = None -> zlength (file_of d pre) < 10 ^ 10 ->
    session h0 h s -> configured s now1 now2 d -> no_clear h -> s_err s = false ->
    exists root info outlines layers script files, trailer_names (file_of d pre) root info /\
      object_in (file_of d pre) root (catalog_text (fst (asked_display h)) (snd (asked_display h)) outlines layers (d_pane d) script files) /\
      match last_of script_call h, script with
      | None, None => True
      | Some src, Some k => exists m text, object_in (file_of d pre) k (line (bs "<<") +++ line (bs "/Names [(EmbeddedJS) " +++ ref m +++ bs "]") +++ line (bs ">>")) /\
          object_in (file_of d pre) m (line (bs "<<") +++ line (bs "/S /JavaScript") +++ line (bs "/JS " +++ text) +++ line (bs ">>")) /\
          forall rest, read_string (text +++ rest) = Some (src, rest)
      | _, _ => False
      end.
Proof.
  intros E d pre h0 h s now1 now2 W F RS P Sz Se (_ & _ & _ & _ & _ & _ & _ & _ & Cz & Cl & Cj & _) Nc Er.
  destruct (C71_catalog_partial E d pre W F RS Sz) as (n & o & la & js & fs & en & T & _ & _ & OC & _ & _ & SL & _).
  destruct Se as (s0 & N & R). apply new_spec in N as (_ & _ & _ & _ & Nj & _ & _ & Nz & Nl & _).
  destruct (run_display _ _ _ R Nc Er) as (_ & D). rewrite Nz, Nl in D.
  assert (X : asked_display h = (d_zoom d, d_layout d)).
  { rewrite Cz, Cl. unfold asked_display. rewrite D. reflexivity. }
  exists n, (n - 1), o, la, js, fs. split; [exact T|]. rewrite X. split; [exact OC|].
  pose proof (run_last (fun c => option_map Some (script_call c)) s_js h s0 s step_js R) as J. rewrite last_of_map, Nj, <- Cj in J.
  unfold script_lead in SL. rewrite J in SL. destruct (last_of script_call h) as [src|]; cbn [option_map or] in SL; destruct js as [k|]; try exact SL.
  destruct SL as (m & K1 & K2). exists m, (textstring src). split; [exact K1|]. split.
  - assert (St : stored d m src = src) by (unfold stored; rewrite P; reflexivity). rewrite St in K2.
    replace (bs "/JS " +++ textstring src) with (bs "/JS (" +++ escape src +++ bs ")"); [exact K2|].
    unfold textstring. reflexivity.
  - intros rest. apply textstring_roundtrip.
Qed.
Print Assumptions C84_view_partial.

(** compression and sorting: the last call on the document, else the last default set before it was made, else compressed and unsorted *)
Theorem C84_flags : forall (h0 h : list call) (s : sets), session h0 h s ->
  s_compress s = or (last_of compress_call h) (or (last_of default_compress_call h0) true) /\
  s_sort s = or (last_of sort_call h) (or (last_of default_sort_call h0) false).
Proof.
  intros h0 h s (s0 & N & R). apply new_spec in N as (_ & _ & N3 & N4 & _).
  rewrite (run_last _ _ _ _ _ step_compress R), (run_last _ _ _ _ _ step_sort R), N3, N4, defaults_compress, defaults_sort. now split.
Qed.
Print Assumptions C84_flags.

(** ** Concrete sessions *)
Definition with_settings (s : sets) (now1 now2 : date) : doc Z :=
  let d := doc0 [page0 (bs "first") []] 1 [] [] [] [] None in {|
  d_pages := d_pages d; d_page := d_page d; d_k := d_k d; d_h := d_h d; d_defw := d_defw d; d_defh := d_defh d; d_links := d_links d;
  d_alias := d_alias d; d_aliasnb := d_aliasnb d; d_atts := d_atts d; d_docatts := d_docatts d; d_version := d_version d; d_blendmap := d_blendmap d;
  d_compress := s_compress s; d_sort := s_sort s; d_gsort := d_gsort d; d_protect := None; d_layers := []; d_pane := false;
  d_blends := d_blends d; d_grads := d_grads d; d_spots := d_spots d; d_diffs := d_diffs d; d_files := d_files d; d_fonts := d_fonts d;
  d_images := d_images d; d_tpls := d_tpls d;
  d_impobjs := d_impobjs d; d_imptpls := d_imptpls d; d_js := s_js s; d_xmp := s_xmp s; d_outlines := d_outlines d;
  d_producer := s_text s Producer; d_title := s_text s Title; d_subject := s_text s Subject; d_author := s_text s Author; d_keywords := s_text s Keywords; d_creator := s_text s Creator;
  d_created := date_string (time_or_now now1 (s_created s)); d_modified := date_string (time_or_now now2 (s_modified s)); d_zoom := s_zoom s; d_layout := s_layout s; d_pagesizes := d_pagesizes d |}.
Lemma with_settings_wf s now1 now2 : well_formed (E := env0) (with_settings s now1 now2).
Proof. constructor; try (intros; contradiction); [reflexivity|apply env0_fmt]. Qed.
Lemma with_settings_rs s now1 now2 : resources_sound (E := env0) (with_settings s now1 now2).
Proof. constructor; try (intros; contradiction); try constructor. Qed.
Lemma with_settings_configured s now1 now2 : configured (E := env0) s now1 now2 (with_settings s now1 now2).
Proof. unfold configured. repeat split. Qed.

Definition day (y : Z) : date := {| dt_year := y; dt_month := 2; dt_day := 9; dt_hour := 23; dt_min := 5; dt_sec := 0 |}.
Definition some_calls : list call :=
  [SetText Title (bs "draft") false; SetText Author (bs "me") false; SetDisplayMode (bs "real") []; SetText Title (utf8 [40; 233; 8364]) true;
   SetJavascript (bs "run()"); SetText Producer [] false; SetModificationDate (Some (day 812))].
Definition some_sets : sets := match new (defaults_after [SetDefaultCreationDate (Some (day 2001))]) with Ret s => match run some_calls s with Ret s => s | _ => s end | _ => 
  {| s_text := fun _ => []; s_zoom := []; s_layout := []; s_created := None; s_modified := None; s_compress := false; s_sort := false; s_js := None; s_xmp := []; s_err := false |} end.
Example C84_ex :
  let h0 := [SetDefaultCreationDate (Some (day 2001))] in
  let d := with_settings some_sets (day 1) (day 1) in
  session h0 some_calls some_sets /\ no_clear some_calls /\ s_err some_sets = false /\ well_formed (E := env0) d /\ finished (E := env0) d [] /\ resources_sound (E := env0) d /\
  d_protect d = None /\ zlength (file_of (E := env0) d []) < 10 ^ 10 /\ configured (E := env0) some_sets (day 1) (day 1) d /\
  (forall f, exists t, means (fst (asked_text some_calls f)) (snd (asked_text some_calls f)) t) /\
  asked_text some_calls Title = (utf8 [40; 233; 8364], true) /\
  asked_created h0 some_calls (day 1) = day 2001 /\ asked_modified h0 some_calls (day 1) = day 812 /\
  date_string (day 812) = bs "D:08120209230500" /\ asked_display some_calls = (bs "real", bs "default") /\ last_of script_call some_calls = Some (bs "run()") /\
  read_dictionary (rest_of (file_of (E := env0) d []) 7 []) = Some [(bs "Title", [254; 255; 0; 40; 0; 233; 32; 172]); (bs "Author", bs "me"); (bs "CreationDate", bs "D:20010209230500"); (bs "ModDate", bs "D:08120209230500")].
Proof.
  cbv zeta. split; [eexists; split; vm_compute; reflexivity|]. split; [intros X; repeat (destruct X as [X|X]; [discriminate X|]); contradiction|]. split; [vm_compute; reflexivity|]. split; [apply with_settings_wf|].
  split; [split; vm_compute; reflexivity|]. split; [apply with_settings_rs|]. split; [reflexivity|]. split; [vm_compute; reflexivity|]. split; [apply with_settings_configured|].
  split. { intros [| | | | |]; eexists; try (apply means_bytes; discriminate). apply means_utf8. repeat constructor; unfold scalar; lia. }
  repeat split; vm_compute; reflexivity.
Qed.

(** *** A call of SetDisplayMode that is refused changes the view: with a wrong layout its zoom is kept *)
Definition fresh : sets := match new (defaults_after []) with Ret s => s | _ => some_sets end.
Definition cleared : sets := with_err false (set_display (bs "real") (bs "bogus") fresh).
Theorem C84_refused_refuted :
  ~ (forall (E : env) (d : doc (e_num E)) (pre : bytes) h z l s s1 s2 now1 now2,
       well_formed d -> finished d pre -> resources_sound d ->
       session [] h s -> last_of display_call h = None -> s_err s = false ->
       run [SetDisplayMode z l] s = Ret s1 -> s_err s1 = true -> run [ClearError] s1 = Ret s2 -> configured s2 now1 now2 d ->
       forall n b, object_in (file_of d pre) n (line (bs "<<") +++ line (bs "/Type /Catalog") +++ line (bs "/Pages 1 0 R") +++ bs "/OpenAction " +++ b) -> False).
Proof.
  intros H. pose (f := file_of (E := env0) (with_settings cleared (day 1) (day 1)) []).
  apply (H env0 (with_settings cleared (day 1) (day 1)) [] [] (bs "real") (bs "bogus") fresh (set_display (bs "real") (bs "bogus") fresh) cleared (day 1) (day 1)
    (with_settings_wf _ _ _) ltac:(split; vm_compute; reflexivity) (with_settings_rs _ _ _)
    ltac:(exists fresh; split; reflexivity) eq_refl eq_refl eq_refl eq_refl eq_refl (with_settings_configured _ _ _) 6
    (bs "[3 0 R /XYZ null null 1]" +++ eol +++ bs "/Names <<" +++ eol +++ bs "/EmbeddedFiles << /Names [" +++ eol +++ bs "  " +++ eol +++ bs "] >>" +++ eol +++ bs ">>" +++ eol +++ bs ">>" +++ eol)).
  apply (check_object_in _ (find_xref f 0)). vm_compute. reflexivity.
Qed.
Print Assumptions C84_refused_refuted.
