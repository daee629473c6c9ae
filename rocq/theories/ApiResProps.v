(** C30, C31 and C55: transparency states, links, and the resources page
    contents name. *)
From Verif Require Import Base TextModel ApiModel ApiProofs ApiErr ApiQuiet ApiTurn ApiLife ApiTrack ApiKeep ApiInst ApiSync ApiKeepProps ApiBreakProps ApiColorProps ApiRes.
From Coq Require Import String SpecFloat.
Local Open Scope string_scope.
Local Open Scope list_scope.
Local Open Scope Z_scope.

(** ** Specification *)
Section Spec.
  Context {A : arith}.
  Implicit Types s : st A.
  Definition links_of s (i : nat) := match nth_error (l_pages (t_life s)) i with Some pg => p_links pg | None => [] end.
  (** the (alpha, blend mode) pair that the number of a gs operator stands for *)
  Definition state_of s (i : Z) : option (bytes * bytes) := if i <? 1 then None else nth_error (g_blends (t_gfx s)) (Z.to_nat (i - 1)).
  (** the 16 blend modes of PDF 1.4 *)
  Definition pdf_modes : list bytes :=
    [bs "Normal"; bs "Multiply"; bs "Screen"; bs "Overlay"; bs "Darken"; bs "Lighten"; bs "ColorDodge"; bs "ColorBurn"; bs "HardLight";
     bs "SoftLight"; bs "Difference"; bs "Exclusion"; bs "Hue"; bs "Saturation"; bs "Color"; bs "Luminosity"].
  Definition extends {B} (l l' : list B) : Prop := exists t, l' = l ++ t.
End Spec.

Section Props.
  Context {A : arith} (core_font : bytes -> bytes -> fontdef + bytes)
    (asm : st A -> option (bytes * option error)).
  Notation run := (run core_font asm).
  Notation exec := (exec core_font asm).
  Implicit Types s : st A.

  Lemma mode_listed m : List.existsb (beqb m) blend_modes = true <-> m = [] \/ In m pdf_modes.
  Proof.
    rewrite existsb_exists. split.
    - intros (x & Hx & E). apply beqb_eq in E. subst x.
      change (In m (pdf_modes ++ [[]])) in Hx. apply in_app_or in Hx as [Hx|[Hx|[]]]; auto.
    - intros H. exists m. rewrite beqb_refl. split; [|reflexivity]. change (In m (pdf_modes ++ [[]])). apply in_or_app.
      destruct H as [->|H]; [right; now left|now left].
  Qed.

  (** C30: on a page, a valid request adds to the page exactly one operator,
      the number of which stands for the alpha, as printed, and the mode; the
      table grows only when the pair is not in it; nothing else changes. *)
  Theorem C30_select n a m s s' : failed s = false -> l_state (t_life s) = 2 -> (pageno s < List.length (l_pages (t_life s)))%nat ->
    In m pdf_modes -> nlt A a (ofZ A 0) = false -> nlt A (ofZ A 1) a = false ->
    exec (S n) (SetAlpha a m) s = Some s' ->
    exists i, ops_of s' (pageno s) = ops_of s (pageno s) ++ [Gs i] /\ state_of s' i = Some (f3 A a, m) /\
      (In (f3 A a, m) (g_blends (t_gfx s)) -> g_blends (t_gfx s') = g_blends (t_gfx s)) /\
      (~ In (f3 A a, m) (g_blends (t_gfx s)) -> g_blends (t_gfx s') = g_blends (t_gfx s) ++ [(f3 A a, m)]) /\
      (forall j, j <> pageno s -> ops_of s' j = ops_of s j) /\ failed s' = false /\
      g_alpha (t_gfx s') = a /\ g_mode (t_gfx s') = m /\
      g_draw (t_gfx s') = g_draw (t_gfx s) /\ g_fill (t_gfx s') = g_fill (t_gfx s) /\ t_geo s' = t_geo s /\ t_fnt s' = t_fnt s.
  Proof.
    intros Hf H2 Hl Hm Ha Hb HE. cbn in HE. injection HE as <-. unfold set_alpha. rewrite Hf.
    rewrite (proj2 (mode_listed m)) by now right. cbn [negb]. rewrite Ha, Hb. cbn [orb]. cbv zeta.
    set (s1 := on_gfx _ s).
    assert (P : l_state (t_life s1) = 2 /\ (pageno s1 < List.length (l_pages (t_life s1)))%nat) by (split; assumption).
    change (g_blends (t_gfx s1)) with (g_blends (t_gfx s)).
    destruct (index_of (f3 A a) m (g_blends (t_gfx s))) as [i|] eqn:E.
    - pose proof (index_of_some _ _ _ _ E) as Hn.
      exists (Z.of_nat i + 1). rewrite (emit_ops asm) by apply P.
      change (pageno s1) with (pageno s). rewrite Nat.eqb_refl. unfold state_of.
      rewrite emit_gfx, emit_geo, emit_fnt. repeat split.
      + destruct (Z.ltb_spec (Z.of_nat i + 1) 1); [lia|]. replace (Z.to_nat (Z.of_nat i + 1 - 1)) with i by lia. exact Hn.
      + intros N. exfalso. apply N. eapply nth_error_In, Hn.
      + intros j Hj. rewrite (emit_ops asm) by apply P. change (pageno s1) with (pageno s).
        destruct (Nat.eqb_spec j (pageno s)); [lia|]. now rewrite app_nil_r.
      + unfold failed in *. rewrite emit_errof. exact Hf.
    - pose proof (index_of_none _ _ _ E) as Hn. set (s2 := on_gfx _ s1).
      assert (P' : l_state (t_life s2) = 2 /\ (pageno s2 < List.length (l_pages (t_life s2)))%nat) by (split; assumption).
      exists (Z.of_nat (List.length (g_blends (t_gfx s))) + 1). rewrite (emit_ops asm) by apply P'.
      change (pageno s2) with (pageno s). rewrite Nat.eqb_refl. unfold state_of.
      rewrite emit_gfx, emit_geo, emit_fnt. repeat split.
      + destruct (Z.ltb_spec (Z.of_nat (List.length (g_blends (t_gfx s))) + 1) 1); [lia|].
        replace (Z.to_nat (Z.of_nat (List.length (g_blends (t_gfx s))) + 1 - 1)) with (List.length (g_blends (t_gfx s))) by lia.
        change (g_blends (t_gfx s2)) with (g_blends (t_gfx s) ++ [(f3 A a, m)]).
        rewrite nth_error_app2, Nat.sub_diag by lia. reflexivity.
      + intros N. now destruct Hn.
      + intros j Hj. rewrite (emit_ops asm) by apply P'. change (pageno s2) with (pageno s).
        destruct (Nat.eqb_spec j (pageno s)); [lia|]. now rewrite app_nil_r.
      + unfold failed in *. rewrite emit_errof. exact Hf.
  Qed.

  (** an unknown mode, or a number below 0 or above 1, is an error and changes
      nothing else *)
  Theorem C30_invalid n a m s s' : failed s = false -> exec (S n) (SetAlpha a m) s = Some s' ->
    (m <> [] /\ ~ In m pdf_modes) \/ nlt A a (ofZ A 0) = true \/ nlt A (ofZ A 1) a = true ->
    exists e, s' = force_err e s.
  Proof.
    intros Hf HE H. cbn in HE. injection HE as <-. unfold set_alpha. rewrite Hf.
    destruct (List.existsb (beqb m) blend_modes) eqn:E; cbn [negb]; [|eauto].
    apply mode_listed in E. destruct H as [[H1 H2]|[H|H]]; [tauto| |]; rewrite H, ?orb_true_r; cbn [orb]; eauto.
  Qed.

  (** In every state any program reaches: no pair is listed twice; every gs
      operator of every page has a number of the list; and what a program does
      later changes neither the entries there are nor the operators written. *)
  Theorem C30_table n p k o w h m b s : run n p (init (A := A) k o w h m) = Some (b, s) ->
    NoDup (g_blends (t_gfx s)) /\
    (forall j i, In (Gs i) (ops_of s j) -> exists x, state_of s i = Some x) /\
    (forall n' p' b' s', run n' p' s = Some (b', s') ->
       extends (g_blends (t_gfx s)) (g_blends (t_gfx s')) /\ (forall j, (j <= pages s)%nat -> extends (ops_of s j) (ops_of s' j)) /\
       forall i x, state_of s i = Some x -> state_of s' i = Some x).
  Proof.
    intros H. destruct (d_run core_font asm _ _ _ _ _ (init_rinv k o w h m) H) as [R _]. split; [apply R|]. split.
    - intros j i Hi. unfold ops_of in Hi. destruct (nth_error (l_pages (t_life s)) j) eqn:E; [|destruct Hi].
      pose proof (proj1 R _ _ E) as F. unfold okops in F. rewrite Forall_forall in F. specialize (F _ Hi). cbn in F. unfold nblends in F.
      unfold state_of. destruct (Z.ltb_spec i 1); [lia|].
      destruct (nth_error (g_blends (t_gfx s)) (Z.to_nat (i - 1))) eqn:E2; [eauto|]. apply nth_error_None in E2. lia.
    - intros n' p' b' s' H'. destruct (d_run core_font asm _ _ _ _ _ R H') as [_ (G1 & _ & G3 & _)]. split; [exact G1|]. split.
      + intros j _. unfold ops_of. destruct (nth_error (l_pages (t_life s)) j) as [pg|] eqn:E.
        * destruct (G3 _ _ E) as (pg' & E' & (X & _)). rewrite E'. exact X.
        * now eexists.
      + intros i x. unfold state_of. destruct (i <? 1); [discriminate|]. intros Hx. destruct G1 as [l ->].
        rewrite nth_error_app1; [exact Hx|]. apply nth_error_Some. congruence.
  Qed.

  (** *** C31 *)
  (** AddLink: the identifier, one less than the number of entries after the
      call, is new, and the entries before it are as they were. *)
  Theorem C31_add n s s' : exec (S n) AddLink s = Some s' ->
    nth_error (t_links s) (List.length (t_links s') - 1) = None /\ extends (t_links s) (t_links s') /\
    List.length (t_links s') = S (List.length (t_links s)).
  Proof.
    intros [= <-]. unfold add_link, extends. cbn [t_links st_links].
    assert (E : List.length (t_links s ++ [(0, ofZ A 0)]) = S (List.length (t_links s))) by (rewrite app_length; cbn; lia).
    rewrite E. split; [apply nth_error_None; lia|]. split; [eauto|reflexivity].
  Qed.

  (** SetLink gives the link its page and position, -1 meaning the current
      ones, and changes nothing else; an identifier AddLink never returned
      stops the program (Go: index out of range). *)
  Theorem C31_set n l y q s : 
    ((0 <= l < Z.of_nat (List.length (t_links s))) -> exists s', exec (S n) (SetLink l y q) s = Some s' /\
      nth_error (t_links s') (Z.to_nat l) =
        Some (if q =? -1 then Z.of_nat (pageno s) else q, if neq A y (nopp A (ofZ A 1)) then x_y (t_geo s) else y) /\
      (forall j, j <> Z.to_nat l -> nth_error (t_links s') j = nth_error (t_links s) j) /\
      t_life s' = t_life s /\ t_gfx s' = t_gfx s /\ t_fnt s' = t_fnt s /\ t_geo s' = t_geo s /\ t_nest s' = t_nest s) /\
    (~ (0 <= l < Z.of_nat (List.length (t_links s))) -> exec (S n) (SetLink l y q) s = None).
  Proof.
    split; intros Hl.
    - eexists. split.
      { cbn [exec]. cbn [step]. unfold set_link. cbv zeta.
        replace ((0 <=? l) && (l <? Z.of_nat (List.length (t_links s)))) with true
          by (symmetry; apply andb_true_iff; split; [apply Z.leb_le; lia|apply Z.ltb_lt; lia]). reflexivity. }
      cbn -[upd]. repeat split.
      + destruct (nth_error (t_links s) (Z.to_nat l)) as [x|] eqn:E; [|apply nth_error_None in E; lia].
        now rewrite (nth_error_upd_eq _ _ _ _ E).
      + intros j Hj. now rewrite nth_error_upd by auto.
    - cbn [exec step]. unfold set_link. cbv zeta. destruct ((0 <=? l) && (l <? Z.of_nat (List.length (t_links s)))) eqn:E; [|reflexivity].
      apply andb_true_iff in E as [E1 E2]. apply Z.leb_le in E1. apply Z.ltb_lt in E2. lia.
  Qed.

  (** Link and LinkString add one entry to the list of the current page, the
      rectangle in points with y upwards, and change nothing else. *)
  Definition region s (x y w h : num A) (id : Z) (url : bytes) :=
    mk_link (nmul A x (x_k (t_geo s))) (nsub A (x_hpt (t_geo s)) (nmul A y (x_k (t_geo s))))
            (nmul A w (x_k (t_geo s))) (nmul A h (x_k (t_geo s))) id url.
  Lemma new_link_links x y w h l u s j : (pageno s < List.length (l_pages (t_life s)))%nat ->
    links_of (new_link x y w h l u s) j = links_of s j ++ (if Nat.eqb j (pageno s) then [region s x y w h l u] else []).
  Proof.
    intros Hl. unfold links_of, new_link. cbn -[upd]. destruct (Nat.eqb_spec j (pageno s)) as [->|N].
    - destruct (nth_error (l_pages (t_life s)) (pageno s)) as [pg|] eqn:E; [|apply nth_error_None in E; lia].
      rewrite (nth_error_upd_eq _ _ _ _ E). reflexivity.
    - rewrite nth_error_upd by exact N. now rewrite app_nil_r.
  Qed.
  Theorem C31_link n x y w h s : (pageno s < List.length (l_pages (t_life s)))%nat ->
    (forall l s', exec (S n) (Link x y w h l) s = Some s' ->
       links_of s' (pageno s) = links_of s (pageno s) ++ [region s x y w h l []] /\
       (forall j, j <> pageno s -> links_of s' j = links_of s j) /\ (forall j, ops_of s' j = ops_of s j) /\ t_links s' = t_links s /\ errof s' = errof s /\ pages s' = pages s) /\
    (forall u s', exec (S n) (LinkString x y w h u) s = Some s' ->
       links_of s' (pageno s) = links_of s (pageno s) ++ [region s x y w h 0 u] /\
       (forall j, j <> pageno s -> links_of s' j = links_of s j) /\ (forall j, ops_of s' j = ops_of s j) /\ t_links s' = t_links s /\ errof s' = errof s /\ pages s' = pages s).
  Proof.
    intros Hl. split; intros ? s' [= <-].
    all: repeat split; try (intros j Hj); try (intros j); rewrite ?new_link_links by exact Hl; rewrite ?Nat.eqb_refl; auto.
    all: try (destruct (Nat.eqb_spec j (pageno s)); [lia|now rewrite app_nil_r]).
    all: try apply link_ops.
    all: unfold pages, new_link; cbn -[upd]; now rewrite length_upd.
  Qed.

  (** For every program: the regions recorded on a page stay, in their order,
      and identifiers stay valid. *)
  Theorem C31_kept n p k o w h m b s : run n p (init (A := A) k o w h m) = Some (b, s) ->
    forall n' p' b' s', run n' p' s = Some (b', s') ->
      (forall j, extends (links_of s j) (links_of s' j)) /\ (List.length (t_links s) <= List.length (t_links s'))%nat.
  Proof.
    intros H n' p' b' s' H'. destruct (d_run core_font asm _ _ _ _ _ (init_rinv k o w h m) H) as [R _].
    destruct (d_run core_font asm _ _ _ _ _ R H') as [_ (_ & _ & G3 & G4)]. split; [|exact G4].
    intros j. unfold links_of. destruct (nth_error (l_pages (t_life s)) j) as [pg|] eqn:E.
    - destruct (G3 _ _ E) as (pg' & E' & (_ & X)). rewrite E'. exact X.
    - now eexists.
  Qed.

  (** *** C55: the font and graphics state names in the page contents are
      defined, whatever the program, or the font name is empty. *)
  Theorem C55_resources_partial n p k o w h m b s : run n p (init (A := A) k o w h m) = Some (b, s) ->
    forall j, (forall id z, In (Tf id z) (ops_of s j) -> id <> [] -> exists key fd, In (key, fd) (f_table (t_fnt s)) /\ fd_id fd = id) /\
              (forall i, In (Gs i) (ops_of s j) -> 1 <= i <= Z.of_nat (List.length (g_blends (t_gfx s)))).
  Proof.
    intros H j. destruct (d_run core_font asm _ _ _ _ _ (init_rinv k o w h m) H) as [R _].
    unfold ops_of. destruct (nth_error (l_pages (t_life s)) j) eqn:E; [|split; intros ? *; contradiction].
    pose proof (proj1 R _ _ E) as F. unfold okops in F. rewrite Forall_forall in F. split.
    - intros id z Hi Hn. destruct (F _ Hi) as [->|X]; [contradiction|exact X].
    - intros i Hi. exact (F _ Hi).
  Qed.
End Props.

Print Assumptions C30_select.
Print Assumptions C30_invalid.
Print Assumptions C30_table.
Print Assumptions C31_add.
Print Assumptions C31_set.
Print Assumptions C31_link.
Print Assumptions C31_kept.
Print Assumptions C55_resources_partial.

(** *** Examples and refutations *)
Definition alpha_ex : list (call arithZ) :=
  [AddPage; SetAlpha (A := arithZ) 1 (bs "Multiply"); SetAlpha (A := arithZ) 0 (bs "Normal"); AddPage; SetAlpha (A := arithZ) 1 (bs "Multiply")].
Definition gs_of (l : list (op arithZ)) : list Z := flat_map (fun o => match o with Gs i => [i] | _ => [] end) l.
Example C30_ex : after alpha_ex (fun s => (g_blends (t_gfx s), gs_of (ops_of s 1), gs_of (ops_of s 2), state_of s 1)) =
  Some ([(bs "1", bs "Multiply"); (bs "0", bs "Normal")], [1; 2], [1], Some (bs "1", bs "Multiply")).
Proof. vm_compute. reflexivity. Qed.
Example C30_invalid_ex : after (alpha_ex ++ [SetAlpha (A := arithZ) 2 (bs "Normal")]) (fun s => (errof s, List.length (g_blends (t_gfx s)))) = Some (Some EAlpha, 2%nat).
Proof. vm_compute. reflexivity. Qed.

(** The documentation says that an empty mode stands for Normal.  The state
    selected has the empty mode, which is no blend mode of PDF. *)
Theorem C30_empty_mode_refuted :
  after (AddPage :: [SetAlpha (A := arithZ) 1 []]) (fun s => (gs_of (ops_of s 1), state_of s 1, failed s)) = Some ([1], Some (bs "1", []), false).
Proof. vm_compute. reflexivity. Qed.
(** A NaN is in no range, and is accepted. *)
Theorem C30_nan_refuted cos sin tan pi f3 core_font asm n (s : st (ieee cos sin tan pi f3)) : failed s = false ->
  exists s', exec core_font asm (S n) (SetAlpha (A := ieee cos sin tan pi f3) S754_nan (bs "Normal")) s = Some s' /\ failed s' = false /\
    g_alpha (t_gfx s') = S754_nan.
Proof.
  intros Hf. eexists. split; [reflexivity|]. unfold set_alpha. rewrite Hf.
  assert (L1 : forall x, nlt (ieee cos sin tan pi f3) S754_nan x = false) by (intros []; reflexivity).
  assert (L2 : forall x, nlt (ieee cos sin tan pi f3) x S754_nan = false) by (intros []; reflexivity).
  rewrite L1, L2. destruct (List.existsb (beqb (bs "Normal")) blend_modes) eqn:E; [|discriminate E]. cbn [negb orb]. cbv zeta.
  destruct (index_of _ _ _); unfold failed in *; rewrite emit_errof, emit_gfx; split; try reflexivity; exact Hf.
Qed.

Definition link_ex : list (call arithZ) :=
  [AddLink; AddPage; Link (A := arithZ) 1 2 3 4 1; AddPage; AddLink; SetLink (A := arithZ) 1 (-1) (-1); LinkString (A := arithZ) 5 6 7 8 (bs "http")].
Example C31_ex : after link_ex (fun s => (t_links s, links_of s 1, links_of s 2)) =
  Some ([(0, 0); (2, 10); (0, 0)],
        [mk_link (A := arithZ) 1 298 3 4 1 []], [mk_link (A := arithZ) 5 294 7 8 0 (bs "http")]).
Proof. vm_compute. reflexivity. Qed.
Definition tf_of (l : list (op arithZ)) : list (bytes * Z) := flat_map (fun o => match o with Tf id z => [(id, z)] | _ => [] end) l.
Example C55_ex : after [AddPage; SetFont (A := arithZ) (bs "Arial") (bs "B") 12; AddPage]
  (fun s => (List.map (fun kf => (fst kf, fd_id (snd kf))) (f_table (t_fnt s)), tf_of (ops_of s 2))) =
  Some ([(bs "helveticaB", bs "FhelveticaB")], [(bs "FhelveticaB", 12); (bs "FhelveticaB", 12)]).
Proof. vm_compute. reflexivity. Qed.
(** C55 in full is false: setting a size before any font writes an operator
    that names no font. *)
Theorem C55_no_font_refuted :
  after [AddPage; SetFontSize (A := arithZ) 10] (fun s => (List.length (f_table (t_fnt s)), tf_of (ops_of s 1), failed s)) =
  Some (0%nat, [([], 10)], false).
Proof. vm_compute. reflexivity. Qed.
