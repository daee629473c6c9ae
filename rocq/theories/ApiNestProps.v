(** C21 and C22: clipping and transformation contexts, and layers, are
    balanced on every page. *)
From Verif Require Import Base ApiModel ApiProofs ApiErr ApiQuiet ApiTurn ApiTrack ApiInst.
From Coq Require Import String.
Local Open Scope string_scope.
Local Open Scope list_scope.
Local Open Scope Z_scope.

(** ** Specification: reading the content of a page *)
Section Spec.
  Context {A : arith}.

  (** the depth of the graphics state stack after an operator; a Q on the empty
      stack is an error, and nothing is known after raw content *)
  Definition stack_step (d : nat) (o : op A) : option nat :=
    match o with
    | Save => Some (S d)
    | Restore => match d with O => None | S d => Some d end
    | Raw _ => None
    | _ => Some d
    end.
  Definition stack_depth := trk (A := A) stack_step.
  (** every Q has its q before it and every q its Q after it *)
  Definition balanced (l : list (op A)) : Prop := stack_depth 0%nat l = Some 0%nat.

  (** the layer whose marked content is open, for a document with n layers;
      sections do not nest, and name a layer that exists *)
  Definition layer_step (n : nat) (q : option Z) (o : op A) : option (option Z) :=
    match o, q with
    | BeginOC id, None => if (0 <=? id) && (id <? Z.of_nat n) then Some (Some id) else None
    | BeginOC _, Some _ => None
    | EndOC, Some _ => Some None
    | EndOC, None => None
    | Raw _, _ => None
    | _, _ => Some q
    end.
  Definition layers_balanced (n : nat) (l : list (op A)) : Prop := trk (A := A) (layer_step n) None l = Some None.

  (** pages were only left and entered with no context open, with no layer open *)
  Definition turned_outside_contexts (s : st A) : Prop := forall d ly, In (EvTurn d ly) (t_log s) -> d = 0.
  Definition turned_outside_layers (s : st A) : Prop := forall d ly, In (EvTurn d ly) (t_log s) -> ly = None.

  (** RoundedRectExt opens a context it does not close; nothing can be said of
      raw content *)
  Definition closes_contexts (c : call A) : Prop :=
    match c with RoundedRectExt _ _ | RawWriteStr _ => False | _ => True end.
  Definition not_raw (c : call A) : Prop := match c with RawWriteStr _ => False | _ => True end.
End Spec.

Section Props.
  Context {A : arith} (core_font : bytes -> bytes -> fontdef + bytes)
    (asm : st A -> option (bytes * option error)).

  Lemma no_hooks (P : call A -> Prop) k o w h m : hooks_ok P (init (A := A) k o w h m).
  Proof. unfold hooks_ok, init. destruct (if beqb o (bs "P") then (w, h) else (h, w)). cbn. repeat split; discriminate. Qed.

  Definition depth_of (n : nest) : nat := Z.to_nat (n_clip n + n_tran n).
  Definition nonneg (n : nest) : Prop := 0 <= n_clip n /\ 0 <= n_tran n.

  Lemma stack_plain l d : forallb plain_op l = true -> trk (A := A) stack_step d l = Some d.
  Proof.
    induction l as [|o l IH]; cbn; [reflexivity|]. intros H. apply andb_prop in H as [H1 H2].
    destruct o; try discriminate H1; cbn; auto.
  Qed.

  Lemma stack_inv n p k o w h m b s : okp closes_contexts p -> run core_font asm n p (init (A := A) k o w h m) = Some (b, s) ->
    tinv stack_step 0%nat depth_of nonneg (fun d _ => d = 0) (fun _ => True) s.
  Proof.
    intros Hp H. eapply (t_run core_font asm stack_step 0%nat depth_of nonneg (fun d _ => d = 0) (fun _ => True) closes_contexts);
      try exact Hp; try exact H; try apply no_hooks.
    - intros q x Hx. destruct x; try discriminate Hx; reflexivity.
    - intros q l Hl. cbn. rewrite trk_app, stack_plain by exact Hl. reflexivity.
    - intros x [H1 H2] E. unfold depth_of. rewrite E. reflexivity.
    - intros x what args [H1 H2]. split; [split; cbn; lia|]. cbn. f_equal. unfold depth_of. cbn. lia.
    - intros x [H1 H2] Hg. split; [split; cbn; lia|]. cbn. unfold depth_of. cbn.
      replace (n_clip x + n_tran x) with (Z.succ (n_clip x - 1 + n_tran x)) by lia. rewrite Z2Nat.inj_succ by lia. reflexivity.
    - intros x [H1 H2]. split; [split; cbn; lia|]. cbn. f_equal. unfold depth_of. cbn. lia.
    - intros x [H1 H2] Hg. split; [split; cbn; lia|]. cbn. unfold depth_of. cbn.
      replace (n_clip x + n_tran x) with (Z.succ (n_clip x + (n_tran x - 1))) by lia. rewrite Z2Nat.inj_succ by lia. reflexivity.
    - intros x id H1 E. split; [exact H1|reflexivity].
    - intros x id H1 E _. split; [exact H1|reflexivity].
    - auto.
    - intros x y H1. split; [exact H1|reflexivity].
    - intros args sty [].
    - intros x [].
    - unfold init. destruct (if beqb o (bs "P") then (w, h) else (h, w)). split; [split; cbn; lia|].
      intros _ _ i pg. cbn. destruct i as [|[|i]]; cbn; try discriminate. intros [= <-]. reflexivity.
  Qed.

  (** C21, first part.  Whatever program, registered functions included, builds
      the document, once it is closed (or whenever no context is open) the q and
      Q operators of every page are balanced, provided pages were only changed
      outside of clipping and transformation contexts. *)
  Theorem C21_balanced_partial n p k o w h m b s :
    okp closes_contexts p -> run core_font asm n p (init (A := A) k o w h m) = Some (b, s) ->
    turned_outside_contexts s ->
    l_state (t_life s) = 3 \/ n_clip (t_nest s) + n_tran (t_nest s) = 0 ->
    forall pg, In pg (l_pages (t_life s)) -> balanced (p_ops pg).
  Proof.
    intros Hp H HT Hc pg Hin. destruct (stack_inv _ _ _ _ _ _ _ _ _ Hp H) as [_ HI].
    apply In_nth_error in Hin as [i Hi]. specialize (HI HT I _ _ Hi). unfold balanced, stack_depth. rewrite HI.
    unfold current. destruct Hc as [->|Hc]; [reflexivity|]. unfold depth_of. rewrite Hc. now destruct (_ && _).
  Qed.

  (** the open sections the document keeps count of are those of the page *)
  Theorem C21_current_depth n p k o w h m b s :
    okp closes_contexts p -> run core_font asm n p (init (A := A) k o w h m) = Some (b, s) ->
    turned_outside_contexts s -> l_state (t_life s) = 2 ->
    forall pg, nth_error (l_pages (t_life s)) (pageno s) = Some pg ->
    stack_depth 0%nat (p_ops pg) = Some (Z.to_nat (n_clip (t_nest s) + n_tran (t_nest s))).
  Proof.
    intros Hp H HT Hc pg Hi. destruct (stack_inv _ _ _ _ _ _ _ _ _ Hp H) as [_ HI].
    specialize (HI HT I _ _ Hi). unfold current in HI. rewrite Hc, Nat.eqb_refl in HI. exact HI.
  Qed.

  (** *** Second part: misuse is an error *)
  Inductive bracket := BClip (what : bytes) (args : list (num A)) | EClip | BTran | ETran.
  Definition call_of (x : bracket) : call A :=
    match x with BClip w a => ClipBegin w a | EClip => ClipEnd | BTran => TransformBegin | ETran => TransformEnd end.
  (** contexts of a kind opened, less those closed *)
  Definition clip_balance (l : list bracket) : Z :=
    fold_right Z.add 0 (map (fun x => match x with BClip _ _ => 1 | EClip => -1 | _ => 0 end) l).
  Definition tran_balance (l : list bracket) : Z :=
    fold_right Z.add 0 (map (fun x => match x with BTran => 1 | ETran => -1 | _ => 0 end) l).

  Lemma calls_cons_run n c l s : run core_font asm n (calls (c :: l)) s =
    match exec core_font asm n c s with None => None | Some s' => run core_font asm n (calls l) s' end.
  Proof. reflexivity. Qed.

  Lemma firstn_all_pos {B} (f : list B -> Z) x l (g : Z) :
    (forall m, f (x :: m) = g + f m) -> f [] = 0 ->
    forall c, ((forall k, 0 <= c + f (firstn k (x :: l))) <-> 0 <= c /\ forall k, 0 <= (c + g) + f (firstn k l)).
  Proof.
    intros Hf H0 c. split.
    - intros H. split; [specialize (H O); cbn in H; lia|]. intros k. specialize (H (S k)). cbn [firstn] in H. rewrite Hf in H. lia.
    - intros [H1 H2] [|k]; [cbn; lia|]. cbn [firstn]. rewrite Hf. specialize (H2 k). lia.
  Qed.

  Lemma bracket_error n l : forall s b s', run core_font asm (S n) (calls (map call_of l)) s = Some (b, s') -> failed s = true -> failed s' = true.
  Proof.
    induction l as [|x l IH]; intros s b s' H Hf; [injection H as _ <-; exact Hf|].
    change (map call_of (x :: l)) with (call_of x :: map call_of l) in H. rewrite calls_cons_run in H.
    destruct (exec core_font asm (S n) (call_of x) s) as [s1|] eqn:E; [|discriminate].
    apply (IH _ _ _ H). destruct x; cbn in E; injection E as <-.
    - unfold clip_begin. rewrite emit_failed. exact Hf.
    - unfold clip_end. now rewrite Hf.
    - unfold transform_begin. rewrite emit_failed. exact Hf.
    - unfold transform_end. destruct (_ >? _); [rewrite emit_failed; exact Hf|reflexivity].
  Qed.

  Lemma bracket_run n l : forall s, failed s = false -> 0 <= n_clip (t_nest s) -> 0 <= n_tran (t_nest s) ->
    exists s', run core_font asm (S n) (calls (map call_of l)) s = Some (true, s') /\
      (failed s' = false <-> (forall k, 0 <= n_clip (t_nest s) + clip_balance (firstn k l)) /\ (forall k, 0 <= n_tran (t_nest s) + tran_balance (firstn k l))) /\
      (failed s' = false -> n_clip (t_nest s') = n_clip (t_nest s) + clip_balance l /\ n_tran (t_nest s') = n_tran (t_nest s) + tran_balance l /\
         t_hook s' = t_hook s /\ l_state (t_life s') = l_state (t_life s)).
  Proof.
    induction l as [|x l IH]; intros s Hf Hc Ht.
    { exists s. split; [reflexivity|]. split; [|intros _; cbn; repeat split; lia].
      split; [|tauto]. intros _. split; intros k; rewrite firstn_nil; cbn; lia. }
    change (map call_of (x :: l)) with (call_of x :: map call_of l).
    assert (Step : exists s1, exec core_font asm (S n) (call_of x) s = Some s1 /\
      ((failed s1 = false /\ t_hook s1 = t_hook s /\ l_state (t_life s1) = l_state (t_life s) /\
        n_clip (t_nest s1) = n_clip (t_nest s) + clip_balance [x] /\ n_tran (t_nest s1) = n_tran (t_nest s) + tran_balance [x] /\
        0 <= n_clip (t_nest s1) /\ 0 <= n_tran (t_nest s1)) \/
       (failed s1 = true /\ (n_clip (t_nest s) + clip_balance [x] < 0 \/ n_tran (t_nest s) + tran_balance [x] < 0)))).
    { destruct x; cbn [call_of exec step]; eexists; (split; [reflexivity|]).
      - left. unfold clip_begin. rewrite emit_failed, emit_hook, emit_state, emit_nest. cbn. repeat split; auto; lia.
      - unfold clip_end. rewrite Hf. destruct (n_clip (t_nest s) >? 0) eqn:E.
        + left. rewrite emit_failed, emit_hook, emit_state, emit_nest. cbn. repeat split; auto; lia.
        + right. split; [reflexivity|]. left. cbn. lia.
      - left. unfold transform_begin. rewrite emit_failed, emit_hook, emit_state, emit_nest. cbn. repeat split; auto; lia.
      - unfold transform_end. destruct (n_tran (t_nest s) >? 0) eqn:E.
        + left. rewrite emit_failed, emit_hook, emit_state, emit_nest. cbn. repeat split; auto; lia.
        + right. split; [reflexivity|]. right. cbn. lia. }
    destruct Step as (s1 & E1 & HS). rewrite calls_cons_run, E1.
    assert (EC : forall m, clip_balance (x :: m) = clip_balance [x] + clip_balance m) by (intros m; unfold clip_balance; cbn [map fold_right]; ring).
    assert (ET : forall m, tran_balance (x :: m) = tran_balance [x] + tran_balance m) by (intros m; unfold tran_balance; cbn [map fold_right]; ring).
    destruct HS as [(F1 & F2 & F3 & F4 & F5 & F6 & F7)|(F1 & F2)].
    - destruct (IH s1 F1 F6 F7) as (s' & G1 & G2 & G3). exists s'. split; [exact G1|]. split.
      + rewrite G2, F4, F5. rewrite (firstn_all_pos clip_balance x l (clip_balance [x]) EC eq_refl).
        rewrite (firstn_all_pos tran_balance x l (tran_balance [x]) ET eq_refl). tauto.
      + intros F. destruct (G3 F) as (K1 & K2 & K3 & K4). rewrite EC, ET. repeat split; try congruence; lia.
    - assert (R : forall l s1, exists s', run core_font asm (S n) (calls (map call_of l)) s1 = Some (true, s')).
      { clear. induction l as [|y l IH]; intros s1; [eexists; reflexivity|].
        change (map call_of (y :: l)) with (call_of y :: map call_of l). rewrite calls_cons_run.
        destruct y; cbn [call_of exec step]; apply IH. }
      destruct (R l s1) as (s' & G1). exists s'. split; [exact G1|].
      pose proof (bracket_error _ _ _ _ _ G1 F1) as Ff. rewrite Ff. split; [|discriminate].
      split; [discriminate|]. intros [K1 K2]. exfalso. specialize (K1 1%nat). specialize (K2 1%nat). cbn [firstn] in K1, K2. lia.
  Qed.

  (** Any sequence of these calls, on a document without error and with no
      context open, is free of error exactly when no prefix of it closes more
      contexts of a kind than it opened; and if it leaves one open, closing the
      document is an error. *)
  Theorem C21_misuse_is_an_error n l s :
    failed s = false -> n_clip (t_nest s) = 0 -> n_tran (t_nest s) = 0 ->
    exists s', run core_font asm (S n) (calls (map call_of l)) s = Some (true, s') /\
      (failed s' = false <-> forall k, 0 <= clip_balance (firstn k l) /\ 0 <= tran_balance (firstn k l)) /\
      (failed s' = false -> clip_balance l + tran_balance l <> 0 ->
       exists s'', exec core_font asm (S n) Close s' = Some s'' /\ failed s'' = true /\ outputs s'' = outputs s').
  Proof.
    intros Hf Hc Ht. destruct (bracket_run n l s Hf) as (s' & H1 & H2 & H3); [lia|lia|].
    exists s'. split; [exact H1|]. split.
    - rewrite H2, Hc, Ht. cbn. split; [intros [K1 K2] k; split; [apply K1|apply K2]|]. intros K. split; intros k; apply K.
    - intros F Hb. destruct (H3 F) as (K1 & K2 & _). pose proof (proj1 H2 F) as [L1 L2].
      specialize (L1 (List.length l)). specialize (L2 (List.length l)). rewrite firstn_all in L1, L2.
      cbn [exec step]. unfold close. rewrite F. cbv zeta.
      destruct (n_clip (t_nest s') >? 0) eqn:E1; [eexists; split; [reflexivity|]; split; reflexivity|].
      destruct (n_tran (t_nest s') >? 0) eqn:E2; [eexists; split; [reflexivity|]; split; reflexivity|].
      exfalso. lia.
  Qed.

  (** *** Layers *)
  Definition layer_ok (n : nest) : Prop := match n_layer n with Some id => 0 <= id < Z.of_nat (List.length (n_layers n)) | None => True end.

  Lemma layer_plain N l q : forallb plain_op l = true -> trk (A := A) (layer_step N) q l = Some q.
  Proof.
    induction l as [|o l IH]; cbn; [reflexivity|]. intros H. apply andb_prop in H as [H1 H2].
    destruct o; try discriminate H1; destruct q; cbn; auto.
  Qed.

  Lemma layer_inv N n p k o w h m b s : okp not_raw p -> run core_font asm n p (init (A := A) k o w h m) = Some (b, s) ->
    tinv (layer_step N) None n_layer layer_ok (fun _ ly => ly = None) (fun l => (List.length l <= N)%nat) s.
  Proof.
    intros Hp H. eapply (t_run core_font asm (layer_step N) None n_layer layer_ok (fun _ ly => ly = None) (fun l => (List.length l <= N)%nat) not_raw);
      try exact Hp; try exact H; try apply no_hooks.
    - intros q x Hx. destruct x; try discriminate Hx; destruct q; reflexivity.
    - intros q l Hl. cbn. destruct q; cbn; rewrite trk_app, layer_plain by exact Hl; reflexivity.
    - intros x _ E. exact E.
    - intros x what args H1. split; [exact H1|]. cbn. now destruct (n_layer x).
    - intros x H1 _. split; [exact H1|]. cbn. now destruct (n_layer x).
    - intros x H1. split; [exact H1|]. cbn. now destruct (n_layer x).
    - intros x H1 _. split; [exact H1|]. cbn. now destruct (n_layer x).
    - intros x id H1 E. split; [exact I|]. cbn. now rewrite E.
    - intros x id H1 E Hid. split; [exact Hid|]. intros HG. cbn. rewrite E.
      destruct (Z.leb_spec 0 id); [|lia]. destruct (Z.ltb_spec id (Z.of_nat N)); [reflexivity|lia].
    - intros l x. rewrite app_length. cbn. lia.
    - intros x y H1. split; [|reflexivity]. unfold layer_ok in *. cbn. destruct (n_layer x); [|exact I]. rewrite app_length. cbn. lia.
    - intros args sty _ q. cbn. now destruct q.
    - intros x [].
    - unfold init. destruct (if beqb o (bs "P") then (w, h) else (h, w)). split; [exact I|].
      intros _ _ i pg. cbn. destruct i as [|[|i]]; cbn; try discriminate. intros [= <-]. reflexivity.
  Qed.

  (** C22, first part: on every page the marked content of layers is balanced
      and does not nest, and refers to layers that exist, provided a page is only entered with no layer open
      (leaving a page by AddPage or Close closes the layer). *)
  Theorem C22_layers_balanced_partial n p k o w h m b s :
    okp not_raw p -> run core_font asm n p (init (A := A) k o w h m) = Some (b, s) ->
    turned_outside_layers s ->
    l_state (t_life s) = 3 \/ n_layer (t_nest s) = None ->
    forall pg, In pg (l_pages (t_life s)) -> layers_balanced (List.length (n_layers (t_nest s))) (p_ops pg).
  Proof.
    intros Hp H HT Hc pg Hin. destruct (layer_inv (List.length (n_layers (t_nest s))) _ _ _ _ _ _ _ _ _ Hp H) as [_ HI].
    apply In_nth_error in Hin as [i Hi]. specialize (HI HT (Nat.le_refl _) _ _ Hi). unfold layers_balanced. rewrite HI.
    unfold current. destruct Hc as [->|Hc]; [reflexivity|]. rewrite Hc. now destruct (_ && _).
  Qed.
End Props.

(** ** Examples, and the full statements are false *)
Definition page_depths (s : st arithZ) : list (option nat) := map (fun p => stack_depth 0%nat (p_ops p)) (tl (l_pages (t_life s))).
Definition page_layers (s : st arithZ) : list (option (option Z)) :=
  map (fun p => trk (A := arithZ) (layer_step (List.length (n_layers (t_nest s)))) None (p_ops p)) (tl (l_pages (t_life s))).
Definition turns (s : st arithZ) : list (Z * option Z) :=
  flat_map (fun e => match e with EvTurn d ly => [(d, ly)] | _ => [] end) (t_log s).

(** a header, a footer and the pages themselves clip, transform and rotate; the
    hypotheses of the theorem hold *)
Definition nest_calls : list (call arithZ) :=
  [SetHeaderFunc (Some (calls [TransformBegin; TransformTranslate (A := arithZ) 1 2; Draw (bs "re f") []; TransformEnd]));
   SetFooterFunc (Some (calls [ClipBegin (bs "re W n") []; ClipBegin (bs "c W n") []; ClipEnd; ClipEnd]));
   AddPage; ClipBegin (bs "re W n") []; TransformBegin; DrawRotated [] (bs "re f") []; TransformEnd; ClipEnd;
   AddPage; SetTextColor 1 2 3; SetFont (A := arithZ) (bs "Arial") [] 12; Text (A := arithZ) 10 10 (bs "x"); Close].
Example C21_example : okp closes_contexts (calls nest_calls) /\
  after nest_calls (fun s => (failed s, l_state (t_life s), turns s, page_depths s)) =
  Some (false, 3, [(0, None); (0, None); (0, None); (0, None)], [Some 0%nat; Some 0%nat]).
Proof. split; [|vm_compute; reflexivity]. cbn. repeat (split; try exact I). Qed.

(** without the proviso C21 fails: RoundedRectExt leaves a q open, ... *)
Theorem C21_rounded_rectangle_refuted :
  after [AddPage; RoundedRectExt [] (bs "f"); Close] (fun s => (failed s, page_depths s)) = Some (false, [Some 1%nat]).
Proof. vm_compute. reflexivity. Qed.
(** ... a page break within a clipping context splits the q and its Q between the pages, ... *)
Theorem C21_page_break_refuted :
  after [AddPage; ClipBegin (bs "re W n") []; AddPage; ClipEnd; Close] (fun s => (failed s, page_depths s)) =
  Some (false, [Some 1%nat; None]).
Proof. vm_compute. reflexivity. Qed.
(** ... and a footer may open a context that is not noticed by Close *)
Theorem C21_footer_refuted :
  after [SetFooterFunc (Some (calls [ClipBegin (bs "re W n") []])); AddPage; Close] (fun s => (failed s, page_depths s)) =
  Some (false, [Some 1%nat]).
Proof. vm_compute. reflexivity. Qed.

Definition layer_calls : list (call arithZ) :=
  [AddLayer (bs "a") true; AddLayer (bs "b") false; AddPage; BeginLayer 0; Draw (bs "re f") []; BeginLayer 1;
   Draw (bs "re f") []; AddPage; BeginLayer 0; BeginLayer 7; BeginLayer 1; Close].
Example C22_example : okp not_raw (calls layer_calls) /\
  after layer_calls (fun s => (failed s, l_state (t_life s), turns s, page_layers s)) =
  Some (false, 3, [(0, None); (0, None); (0, None); (0, None)], [Some None; Some None]).
Proof. split; [|vm_compute; reflexivity]. cbn. repeat (split; try exact I). Qed.
(** without the proviso C22 fails: SetPage within a layer, or BeginLayer before
    the first page, leaves the marks on different pages *)
Theorem C22_set_page_refuted :
  after [AddLayer (bs "a") true; AddPage; AddPage; BeginLayer 0; SetPage 1; EndLayer; Close] (fun s => (failed s, page_layers s)) =
  Some (false, [None; Some (Some 0)]).
Proof. vm_compute. reflexivity. Qed.
Theorem C22_before_first_page_refuted :
  after [AddLayer (bs "a") true; BeginLayer 0; AddPage; EndLayer; Close] (fun s => (failed s, page_layers s)) =
  Some (false, [None]).
Proof. vm_compute. reflexivity. Qed.

Print Assumptions C21_balanced_partial.
Print Assumptions C21_current_depth.
Print Assumptions C21_misuse_is_an_error.
Print Assumptions C22_layers_balanced_partial.
