(** C42: SVG paths. *)
From Verif Require Import Base SvgSpec SvgModel.
From Coq Require Import String.
Open Scope Z_scope.
Notation length := List.length.

(** ** The words of a path *)
Definition item_word (i : item) : bytes := match i with Letter c => [c] | Word w => w end.
Lemma letter_in c : is_letter c = true -> In c (bs "LlCcMmHhVvQqZz").
Proof. intros H. apply existsb_exists in H as (x & Hx & E). apply Z.eqb_eq in E. now subst. Qed.
Lemma letter_cases c : is_letter c = true -> spaced c = [32; c; 32] /\ white c = false.
Proof. intros H. apply letter_in in H. cbn in H. decompose [or] H; subst; try (split; reflexivity); contradiction. Qed.
Lemma sep_cases c : is_sep c = true -> exists d, spaced c = [d] /\ white d = true.
Proof.
  intros H. apply existsb_exists in H as (x & Hx & E). apply Z.eqb_eq in E. subst x. cbn in Hx. decompose [or] Hx; subst; try (eexists; split; reflexivity); contradiction.
Qed.
Lemma word_char c : is_letter c = false -> is_sep c = false -> spaced c = [c] /\ white c = false.
Proof.
  intros H1 H2. unfold spaced. fold (is_letter c). rewrite H1. unfold is_sep in H2. cbn [existsb] in H2. rewrite !orb_false_iff in H2. destruct H2 as (A & B & C & D & E & F & G & _).
  rewrite G. split; [reflexivity|]. unfold white. cbn [existsb]. now rewrite A, B, C, D, E, F.
Qed.
Lemma fields_end s cur : ends_word s -> cur <> [] -> fields (flat_map spaced s) cur = rev cur :: fields (flat_map spaced s) [].
Proof.
  intros H N. destruct s as [|c s]; cbn [flat_map]; [destruct cur; [easy|reflexivity]|].
  assert (exists d, exists t, flat_map spaced (c :: s) = d :: t /\ white d = true) as (d & t & E & W).
  { cbn [flat_map]. destruct H as [H|H]; [destruct (letter_cases c H) as [-> _]; now exists 32, (c :: 32 :: flat_map spaced s)|destruct (sep_cases c H) as (d & -> & W); now exists d, (flat_map spaced s)]. }
  cbn [flat_map] in E. rewrite E. cbn [fields]. rewrite W. destruct cur; [easy|reflexivity].
Qed.
Lemma fields_chars : forall w s cur, Forall (fun c => is_letter c = false /\ is_sep c = false) w -> fields (flat_map spaced (w ++ s)) cur = fields (flat_map spaced s) (rev w ++ cur).
Proof.
  induction w as [|c w IH]; intros s cur H; [reflexivity|]. inversion H as [|? ? [A B] Hr]; subst. destruct (word_char c A B) as [S W]. cbn [app flat_map]. rewrite S. cbn [app fields]. rewrite W, IH by exact Hr.
  cbn [rev]. now rewrite <- app_assoc.
Qed.
Lemma fields_spelled items s : spelled items s -> fields (flat_map spaced s) [] = map item_word items.
Proof.
  induction 1 as [|c l s H _ IH|c l s H _ IH|w l s [W0 W1] E _ IH].
  - reflexivity.
  - cbn [flat_map]. destruct (sep_cases c H) as (d & -> & W). cbn [app fields]. now rewrite W.
  - cbn [flat_map map item_word]. destruct (letter_cases c H) as [-> W]. cbn [app fields]. change (white 32) with true. cbv iota. rewrite W. cbn [rev app]. now rewrite IH.
  - rewrite fields_chars by exact W1. rewrite app_nil_r. rewrite fields_end; [|exact E|intros X; apply W0; apply (f_equal (@rev Z)) in X; now rewrite rev_involutive in X]. rewrite rev_involutive, IH. reflexivity.
Qed.

Section Svg.
  Variable num : Type.
  Variables (add mul : num -> num -> num) (zero : num).
  Variable read : bytes -> option num.
  Notation seg := (seg num). Notation pst := (pst num).
  Notation ploop := (parse_loop num zero read). Notation pword := (parse_word num zero read).

  (** a segment holds a command *)
  Definition rep (c : cmd num) (s : seg) : Prop :=
    match c with
    | Move r (x, y) => s_cmd _ s = (if r then 109 else 77) /\ exists t, s_arg _ s = x :: y :: t
    | LineTo r (x, y) => s_cmd _ s = (if r then 108 else 76) /\ exists t, s_arg _ s = x :: y :: t
    | Horiz r x => s_cmd _ s = (if r then 104 else 72) /\ exists t, s_arg _ s = x :: t
    | Vert r y => s_cmd _ s = (if r then 118 else 86) /\ exists t, s_arg _ s = y :: t
    | Cubic r (a, b) (c, d) (e, f) => s_cmd _ s = (if r then 99 else 67) /\ s_arg _ s = [a; b; c; d; e; f]
    | Quad r (a, b) (c, d) => s_cmd _ s = (if r then 113 else 81) /\ exists t, s_arg _ s = a :: b :: c :: d :: t
    | Close => s_cmd _ s = 90 \/ s_cmd _ s = 122
    end.

  (** ** Parsing *)
  Definition ready (s : pst) : Prop := p_count _ s = 0%nat.
  Definition args_of (c : Z) : nat := if (c =? 77) || (c =? 109) || (c =? 76) || (c =? 108) then 2 else if (c =? 67) || (c =? 99) then 6 else if (c =? 81) || (c =? 113) then 4 else 1.
  Lemma feed : forall ws vs s, map read ws = map Some vs -> ws <> [] -> p_count _ s = length ws -> 
    ploop false ws s = Some (append_seg _ (mk_pst _ (p_cmd _ s) (fold_left (fun a jv => upd num a (fst jv) (snd jv)) (combine (seq (p_j _ s) (length vs)) vs) (p_arg _ s)) (p_j _ s + length vs) 0 (p_prev _ s) (p_segs _ s))).
  Proof.
    induction ws as [|w ws IH]; intros vs s H N L; [easy|]. destruct vs as [|v vs]; [discriminate|]. cbn [map] in H. injection H as Hv H.
    cbn [parse_loop]. unfold parse_word. rewrite L. cbn [length Nat.eqb andb]. rewrite Hv, L. cbn [length p_count]. rewrite Nat.sub_succ, Nat.sub_0_r. destruct ws as [|w' ws].
    - destruct vs; [|discriminate]. cbn [length Nat.eqb parse_loop seq combine fold_left fst snd p_cmd p_arg p_j p_prev p_segs]. do 3 f_equal. lia.
    - cbn [Nat.eqb length]. rewrite (IH vs) by (try easy; exact H). cbn [p_cmd p_arg p_j p_prev p_segs length]. do 3 f_equal. lia.
  Qed.
  Lemma pword_letter c s : is_letter c = true -> c <> 90 -> c <> 122 -> ready s -> forall first, pword first [c] s = Some (setup _ zero (args_of c) (with_cmd _ c s)).
  Proof.
    intros Hc N1 N2 R first. apply letter_in in Hc. unfold parse_word. unfold ready in R. cbn [hd]. rewrite R.
    cbn in Hc. decompose [or] Hc; subst; try contradiction; try (now destruct N1); try (now destruct N2); cbn [Nat.eqb andb orb Z.eqb Z.leb Pos.eqb Z.compare Pos.compare Pos.compare_cont]; rewrite R; reflexivity.
  Qed.
  Lemma pword_cont w s : ready s -> (match w with c :: _ => c = 45 \/ is_digit c = true | [] => False end) -> p_prev _ s <> 0%nat ->
    pword false w s = pword false w (with_cmd _ (again (p_cmd _ s)) (setup _ zero (p_prev _ s) s)).
  Proof.
    intros R Hw Hp. destruct w as [|c w]; [easy|]. unfold parse_word, ready in *. cbn [hd]. rewrite R. cbn [Nat.eqb andb].
    assert (D : (c =? 45) || ((48 <=? c) && (c <=? 57)) = true) by (destruct Hw as [->|Hw]; [reflexivity|unfold is_digit in Hw; now rewrite Hw, orb_true_r]). rewrite D. cbn [andb].
    unfold again. cbn [setup p_cmd with_cmd p_count]. destruct (p_prev _ s) as [|n]; [easy|]. cbn [Nat.eqb andb].
    destruct (p_cmd _ s =? 77); [reflexivity|]. destruct (p_cmd _ s =? 109); reflexivity.
  Qed.

  Lemma ploop_app : forall a b s, ploop false (a ++ b) s = match ploop false a s with Some s' => ploop false b s' | None => None end.
  Proof. induction a as [|w a IH]; intros b s; [reflexivity|]. cbn [app parse_loop]. destruct (pword false w s); [apply IH|reflexivity]. Qed.
  Definition added (s s' : pst) (cs : list (cmd num)) : Prop := ready s' /\ exists sgs, p_segs _ s' = p_segs _ s ++ sgs /\ Forall2 rep cs sgs.
  Lemma group_len c ws x : group num read c ws x -> length ws = args_of c /\ is_letter c = true /\ c <> 90 /\ c <> 122.
  Proof. intros H. destruct H; destruct rel; (split; [reflexivity|]); (split; [reflexivity|]); split; discriminate. Qed.
  Lemma group_feed c ws x s : group num read c ws x -> p_count _ s = length ws -> p_cmd _ s = c -> p_arg _ s = zeros num zero -> p_j _ s = 0%nat ->
    exists s', ploop false ws s = Some s' /\ added s s' [x] /\ p_cmd _ s' = c /\ p_prev _ s' = p_prev _ s.
  Proof.
    intros G L C Z J. destruct G as [rel w0 w1 x y H|rel w0 w1 x y H|rel w x H|rel w x H|rel w0 w1 w2 w3 w4 w5 a b c' d e f H|rel w0 w1 w2 w3 a b c' d H];
      (eexists; split; [apply (feed _ _ s H); [discriminate|exact L]|]); rewrite C, Z, J;
      (split; [|split; reflexivity]); (split; [reflexivity|]); eexists; (split; [reflexivity|]); constructor; try constructor; cbn; try reflexivity; eexists; reflexivity.
  Qed.
  Lemma again_letter c : args_of (again c) = args_of c /\ again (again c) = again c.
  Proof. unfold again. destruct (Z.eqb_spec c 77) as [->|N1]; [split; reflexivity|]. destruct (Z.eqb_spec c 109) as [->|N2]; [split; reflexivity|]. split; [reflexivity|]. now rewrite (proj2 (Z.eqb_neq _ _) N1), (proj2 (Z.eqb_neq _ _) N2). Qed.
  Lemma more_ok c items cs l' : more num read c items cs l' -> forall s, ready s -> again (p_cmd _ s) = c -> p_prev _ s = args_of c ->
    exists s', ploop false (map item_word items) s = ploop false (map item_word l') s' /\ added s s' cs.
  Proof.
    induction 1 as [c l|c ws x l cs l' G P M IH]; intros s R A Pv.
    - exists s. split; [reflexivity|]. split; [exact R|]. exists []. split; [now rewrite app_nil_r|constructor].
    - rewrite map_app, map_map. cbn [item_word]. rewrite map_id. destruct (group_len _ _ _ G) as (L & _).
      destruct (group_feed c ws x (with_cmd _ c (setup _ zero (p_prev _ s) s)) G) as (s1 & E1 & [R1 (sg & S1 & F1)] & C1 & P1); [cbn; rewrite Pv; now symmetry|reflexivity|reflexivity|reflexivity|].
      assert (E : ploop false ws s = Some s1).
      { rewrite <- E1. destruct ws as [|w ws]; [easy|]. cbn [parse_loop]. rewrite (pword_cont w s R); [now rewrite A| |..].
        - destruct w; [easy|]. exact P.
        - rewrite Pv, <- L. easy. }
      rewrite ploop_app, E. destruct (IH s1) as (s2 & E2 & [R2 (sgs & S2 & F2)]); [exact R1| | |].
      + rewrite C1. subst c. apply again_letter.
      + rewrite P1. exact Pv.
      + exists s2. split; [exact E2|]. split; [exact R2|]. exists (sg ++ sgs). split; [rewrite S2, S1, <- app_assoc; reflexivity|]. now apply (Forall2_app F1 F2).
  Qed.
  Lemma path_ok items cs : path_items num read items cs -> forall first s, ready s -> exists s', ploop first (map item_word items) s = Some s' /\ added s s' cs.
  Proof.
    induction 1 as [|c l cs Hc _ IH|c ws x l cs l' cs' G M _ IH]; intros first s R.
    - exists s. split; [reflexivity|]. split; [exact R|]. exists []. split; [now rewrite app_nil_r|constructor].
    - cbn [map item_word parse_loop]. assert (E : pword first [c] s = Some (append_seg _ (with_cmd _ c s))).
      { unfold parse_word, ready in *. cbn [hd]. rewrite R. destruct Hc as [-> | ->]; cbn; rewrite R; reflexivity. }
      rewrite E. destruct (IH false (append_seg _ (with_cmd _ c s)) R) as (s' & E' & [R' (sgs & S' & F)]). exists s'. split; [exact E'|]. split; [exact R'|].
      eexists. split; [rewrite S'; cbn [append_seg p_segs with_cmd]; rewrite <- app_assoc; reflexivity|]. constructor; [exact Hc|exact F].
    - cbn [map item_word parse_loop]. destruct (group_len _ _ _ G) as (L & Lt & N1 & N2). rewrite (pword_letter c s Lt N1 N2 R). rewrite map_app, map_map. cbn [item_word]. rewrite map_id, ploop_app.
      destruct (group_feed c ws x (setup _ zero (args_of c) (with_cmd _ c s)) G) as (s1 & E1 & [R1 (sg & S1 & F1)] & C1 & P1); [now symmetry|reflexivity|reflexivity|reflexivity|]. rewrite E1.
      destruct (more_ok _ _ _ _ M s1) as (s2 & E2 & [R2 (sg2 & S2 & F2)]); [exact R1|now rewrite C1|rewrite P1; symmetry; apply again_letter|]. rewrite E2.
      destruct (IH false s2 R2) as (s3 & E3 & [R3 (sg3 & S3 & F3)]). exists s3. split; [exact E3|]. split; [exact R3|]. exists (sg ++ sg2 ++ sg3).
      split; [rewrite S3, S2, S1, <- !app_assoc; reflexivity|]. exact (Forall2_app F1 (Forall2_app F2 F3)).
  Qed.

  (** ** Absolute coordinates *)
  Hypothesis comm : forall a b, add a b = add b a.
  Notation aloop := (abs_loop num add zero).
  Lemma adjust_0 a b t x y : adjust num add zero (a :: b :: t) 0 x y = add a x :: add b y :: t. Proof. reflexivity. Qed.
  Definition shift (x y : num) (c : cmd num) : cmd num :=
    match c with
    | Move true p => Move false (from add true (x, y) p) | LineTo true p => LineTo false (from add true (x, y) p)
    | Horiz true a => Horiz false (add a x) | Vert true b => Vert false (add b y)
    | Cubic true c0 c1 p => Cubic false (from add true (x, y) c0) (from add true (x, y) c1) (from add true (x, y) p)
    | Quad true c p => Quad false (from add true (x, y) c) (from add true (x, y) p)
    | c => c
    end.
  Definition final (x y : num) (c : cmd num) : num * num :=
    match shift x y c with Move _ p | LineTo _ p | Cubic _ _ _ p | Quad _ _ p => p | Horiz _ a => (a, y) | Vert _ b => (x, b) | Close => (x, y) end.
  Lemma abs_step_ok c s first x y : rep c s -> (first = true -> forall p, c <> Move true p) ->
    rep (shift x y c) (fst (abs_step num add zero first x y s)) /\ snd (abs_step num add zero first x y s) = final x y c.
  Proof.
    intros R F. destruct s as [k a]. unfold abs_step. cbn [s_cmd s_arg].
    destruct c as [r [p q]|r [p q]|r p|r p|r [a0 a1] [a2 a3] [a4 a5]|r [a0 a1] [a2 a3]|]; cbn [rep s_cmd s_arg] in R.
    - destruct R as [-> [t ->]]. destruct r.
      + destruct first; [exfalso; now apply (F eq_refl (p, q))|]. cbn. split; [split; [reflexivity|eexists; reflexivity]|reflexivity].
      + destruct first; cbn; (split; [split; [reflexivity|eexists; reflexivity]|reflexivity]).
    - destruct R as [-> [t ->]]. destruct r, first; cbn; (split; [split; [reflexivity|eexists; reflexivity]|reflexivity]).
    - destruct R as [-> [t ->]]. destruct r, first; cbn; (split; [split; [reflexivity|eexists; reflexivity]|unfold final; cbn; f_equal; try apply comm; reflexivity]).
    - destruct R as [-> [t ->]]. destruct r, first; cbn; (split; [split; [reflexivity|eexists; reflexivity]|unfold final; cbn; f_equal; try apply comm; reflexivity]).
    - destruct R as [-> ->]. destruct r, first; cbn; (split; [split; reflexivity|reflexivity]).
    - destruct R as [-> [t ->]]. destruct r, first; cbn; (split; [split; [reflexivity|eexists; reflexivity]|reflexivity]).
    - destruct R as [-> | ->]; destruct first; cbn; (split; [now left|reflexivity]).
  Qed.
  Lemma abs_cmd : forall sgs first x y, Forall (fun s => s_cmd _ s <> 122) (aloop first x y sgs).
  Proof.
    induction sgs as [|s sgs IH]; intros first x y; cbn [abs_loop]; [constructor|]. destruct (abs_step num add zero first x y s) as [s' [x' y']] eqn:E. constructor; [|apply IH].
    unfold abs_step in E. cbv zeta in E. set (c := if first && (s_cmd num s =? 109) then 77 else s_cmd num s) in *. clearbody c.
    do 13 (match type of E with (if c =? ?k then _ else _) = _ => let Hc := fresh "Hc" in destruct (Z.eqb_spec c k) as [Hc|Hc]; [cbv zeta iota in E; apply (f_equal fst) in E; cbn [fst] in E; rewrite <- E; cbn [s_cmd]; lia|] end).
    apply (f_equal fst) in E; cbn [fst] in E; rewrite <- E. cbn [s_cmd]. assumption.
  Qed.
  Lemma abs_ok : forall cs sgs first stale cur start x y, Forall2 rep cs sgs -> tame stale cs -> (stale = false -> cur = (x, y)) ->
    (first = true -> match cs with Move true _ :: _ => False | _ => True end) ->
    exists cs', Forall2 rep cs' (aloop first x y sgs) /\ Forall absolute cs' /\ draws add cur start cs' = draws add cur start cs.
  Proof.
    induction cs as [|c cs IH]; intros sgs first stale cur start x y R T C F; inversion R as [|? s ? sgs' Rc Rs]; subst; [exists []; repeat split; constructor|].
    cbn [abs_loop]. destruct (abs_step_ok c s first x y Rc) as [R1 R2]; [intros Ef p ->; exact (F Ef)|].
    destruct (abs_step num add zero first x y s) as [s' [x' y']] eqn:E. cbn [fst snd] in R1, R2.
    assert (St : exists stale' cur' start' ps, tame stale' cs /\ (stale' = false -> cur' = (x', y')) /\ (forall t, draws add cur start (shift x y c :: t) = ps ++ draws add cur' start' t) /\
              (forall t, draws add cur start (c :: t) = ps ++ draws add cur' start' t)).
    { assert (X := R2). unfold final in X.
      destruct c as [r p|r p|r p|r p|r a0 a1 p|r a0 p|]; cbn [tame] in T.
      - destruct T as [T1 T2]. exists false, (from add r cur p), (from add r cur p), []. split; [exact T2|]. destruct r; cbn [shift draws from] in *.
        + destruct stale; [discriminate (T1 eq_refl)|]. rewrite (C eq_refl) in *. rewrite X. repeat split; intros; reflexivity.
        + rewrite X. repeat split; intros; reflexivity.
      - destruct T as [T1 T2]. exists false, (from add r cur p), start, [SLine cur (from add r cur p)]. split; [exact T2|]. destruct r; cbn [shift draws from] in *.
        + destruct stale; [discriminate (T1 eq_refl)|]. rewrite (C eq_refl) in *. rewrite X. repeat split; intros; reflexivity.
        + rewrite X. repeat split; intros; reflexivity.
      - destruct T as [T1 T2]. exists stale, (if r then add p (fst cur) else p, snd cur), start, [SLine cur (if r then add p (fst cur) else p, snd cur)]. split; [exact T2|]. destruct r; cbn [shift draws from] in *.
        + destruct stale; [discriminate (T1 eq_refl)|]. rewrite (C eq_refl) in *. cbn [fst snd] in *. rewrite X. repeat split; intros; reflexivity.
        + rewrite X. split; [intros Es; rewrite (C Es); reflexivity|]. split; intros; reflexivity.
      - destruct T as [T1 T2]. exists stale, (fst cur, if r then add p (snd cur) else p), start, [SLine cur (fst cur, if r then add p (snd cur) else p)]. split; [exact T2|]. destruct r; cbn [shift draws from] in *.
        + destruct stale; [discriminate (T1 eq_refl)|]. rewrite (C eq_refl) in *. cbn [fst snd] in *. rewrite X. repeat split; intros; reflexivity.
        + rewrite X. split; [intros Es; rewrite (C Es); reflexivity|]. split; intros; reflexivity.
      - destruct T as [T1 T2]. exists false, (from add r cur p), start, [SCubic cur (from add r cur a0) (from add r cur a1) (from add r cur p)]. split; [exact T2|]. destruct r; cbn [shift draws from] in *.
        + destruct stale; [discriminate (T1 eq_refl)|]. rewrite (C eq_refl) in *. rewrite X. repeat split; intros; reflexivity.
        + rewrite X. repeat split; intros; reflexivity.
      - destruct T as [T1 T2]. exists false, (from add r cur p), start, [SQuad cur (from add r cur a0) (from add r cur p)]. split; [exact T2|]. destruct r; cbn [shift draws from] in *.
        + destruct stale; [discriminate (T1 eq_refl)|]. rewrite (C eq_refl) in *. rewrite X. repeat split; intros; reflexivity.
        + rewrite X. repeat split; intros; reflexivity.
      - exists true, start, start, [SLine cur start]. split; [exact T|]. split; [discriminate|]. split; intros; reflexivity. }
    destruct St as (stale' & cur' & start' & ps & T' & C' & D1 & D2).
    destruct (IH sgs' false stale' cur' start' x' y' Rs T' C' ltac:(discriminate)) as (cs' & F1 & F2 & F3).
    exists (shift x y c :: cs'). split; [constructor; assumption|]. split; [constructor; [|exact F2]; destruct c as [[]|[]|[]|[]|[]|[]|]; cbn; auto|]. now rewrite D1, D2, F3.
  Qed.

  (** ** Writing *)
  Variables (ox oy scale : num).
  Definition place (p : num * num) : num * num := (add ox (mul scale (fst p)), add oy (mul scale (snd p))).
  Definition shows (d : draw num) : shape num :=
    match d with
    | DLine _ x1 y1 x2 y2 => SLine (x1, y1) (x2, y2)
    | DCubic _ x0 y0 cx0 cy0 x1 y1 cx1 cy1 => SCubic (x0, y0) (cx0, cy0) (cx1, cy1) (x1, y1)
    | DCurve _ x0 y0 cx cy x1 y1 => SQuad (x0, y0) (cx, cy) (x1, y1)
    end.
  Notation wpath := (write_path num add mul zero ox oy scale).
  Definition wat (cur start : num * num) (w : wst num) : Prop := (w_x _ w, w_y _ w) = place cur /\ (w_sx _ w, w_sy _ w) = place start.
  Lemma write_ok : forall cs sgs cur start w, Forall2 rep cs sgs -> Forall absolute cs -> Forall (fun s => s_cmd _ s <> 122) sgs -> wat cur start w \/ (match cs with [] | Move _ _ :: _ => True | _ => False end) ->
    exists ds w', wpath sgs w = Some (ds, w') /\ map shows ds = map (moved place) (draws add cur start cs).
  Proof.
    induction cs as [|c cs IH]; intros sgs cur start w R A Zs W; inversion R as [|? s ? sgs' Rc Rs]; subst; [exists [], w; split; reflexivity|]. inversion A as [|? ? Ac Ar]; subst. inversion Zs as [|? ? Zc Zr]; subst.
    cbn [write_path]. destruct s as [k a].
    destruct c as [r [p q]|r [p q]|r p|r p|r [a0 a1] [a2 a3] [a4 a5]|r [a0 a1] [a2 a3]|]; cbn [rep s_cmd s_arg absolute] in Rc, Ac; subst;
      try (destruct W as [W|[]]; destruct w as [wx wy sx sy]; destruct W as [W1 W2]; cbn [w_x w_y w_sx w_sy] in W1, W2).
    - destruct Rc as [-> [t ->]]. cbn. match goal with |- context [write_path _ _ _ _ _ _ _ sgs' ?w0] => destruct (IH sgs' (p, q) (p, q) w0) as (ds & w' & E & M); [exact Rs|exact Ar|exact Zr|left; split; reflexivity|] end. exists ds, w'. rewrite E. split; [reflexivity|exact M].
    - destruct Rc as [-> [t ->]]. cbn. match goal with |- context [write_path _ _ _ _ _ _ _ sgs' ?w0] => destruct (IH sgs' (p, q) start w0) as (ds & w' & E & M); [exact Rs|exact Ar|exact Zr|left; split; [reflexivity|exact W2]|] end. eexists _, w'. rewrite E. split; [reflexivity|]. cbn. rewrite M. cbn. now rewrite W1.
    - destruct Rc as [-> [t ->]]. cbn. destruct cur as [cx cy]. unfold place in W1; cbn [fst snd] in W1; injection W1 as W11 W12. match goal with |- context [write_path _ _ _ _ _ _ _ sgs' ?w0] => destruct (IH sgs' (p, cy) start w0) as (ds & w' & E & M); [exact Rs|exact Ar|exact Zr|left; split; [unfold place; cbn; rewrite <- W12; reflexivity|exact W2]|] end. eexists _, w'. rewrite E. split; [reflexivity|]. cbn. rewrite M. unfold place at 1 2. cbn. now rewrite W11, W12.
    - destruct Rc as [-> [t ->]]. cbn. destruct cur as [cx cy]. unfold place in W1; cbn [fst snd] in W1; injection W1 as W11 W12. match goal with |- context [write_path _ _ _ _ _ _ _ sgs' ?w0] => destruct (IH sgs' (cx, p) start w0) as (ds & w' & E & M); [exact Rs|exact Ar|exact Zr|left; split; [unfold place; cbn; rewrite <- W11; reflexivity|exact W2]|] end. eexists _, w'. rewrite E. split; [reflexivity|]. cbn. rewrite M. unfold place at 1 2. cbn. now rewrite W11, W12.
    - destruct Rc as [-> ->]. cbn. match goal with |- context [write_path _ _ _ _ _ _ _ sgs' ?w0] => destruct (IH sgs' (a4, a5) start w0) as (ds & w' & E & M); [exact Rs|exact Ar|exact Zr|left; split; [reflexivity|exact W2]|] end. eexists _, w'. rewrite E. split; [reflexivity|]. cbn. rewrite M. cbn. now rewrite W1.
    - destruct Rc as [-> [t ->]]. cbn. match goal with |- context [write_path _ _ _ _ _ _ _ sgs' ?w0] => destruct (IH sgs' (a2, a3) start w0) as (ds & w' & E & M); [exact Rs|exact Ar|exact Zr|left; split; [reflexivity|exact W2]|] end. eexists _, w'. rewrite E. split; [reflexivity|]. cbn. rewrite M. cbn. now rewrite W1.
    - destruct Rc as [-> | ->]; [|now destruct Zc]. cbn. match goal with |- context [write_path _ _ _ _ _ _ _ sgs' ?w0] => destruct (IH sgs' start start w0) as (ds & w' & E & M); [exact Rs|exact Ar|exact Zr|left; split; [exact W2|exact W2]|] end. eexists _, w'. rewrite E. split; [reflexivity|]. cbn. rewrite M. cbn. now rewrite W1, W2.
  Qed.

  (** ** C42 *)
  Definition begins (cs : list (cmd num)) : Prop := match cs with Move _ _ :: _ => True | _ => False end.
  Lemma first_abs cs sgs : Forall2 rep cs sgs -> begins cs -> tame false cs ->
    exists cs', begins cs' /\ Forall2 rep cs' (absolutize num add zero sgs) /\ Forall absolute cs' /\ draws add (zero, zero) (zero, zero) cs' = path_draws add zero cs.
  Proof.
    intros R B T. destruct cs as [|[r p| | | | | |] cs]; try easy. inversion R as [|? s ? sgs' Rc Rs]; subst. unfold absolutize.
    assert (E : exists s', rep (Move false p) s' /\ aloop true zero zero (s :: sgs') = aloop false zero zero (s' :: sgs')).
    { destruct s as [k a]. destruct p as [x y]. destruct Rc as [Ek [t Ea]]. cbn [s_cmd s_arg] in Ek, Ea. subst. destruct r.
      - exists (mk_seg _ 77 (x :: y :: t)). split; [split; [reflexivity|eexists; reflexivity]|reflexivity].
      - exists (mk_seg _ 77 (x :: y :: t)). split; [split; [reflexivity|eexists; reflexivity]|reflexivity]. }
    destruct E as (s' & R' & ->).
    destruct (abs_ok (Move false p :: cs) (s' :: sgs') false false (zero, zero) (zero, zero) zero zero) as (cs' & F1 & F2 & F3); [constructor; assumption|split; [discriminate|exact (proj2 T)]|reflexivity|discriminate|].
    exists cs'. split; [|split; [exact F1|split; [exact F2|rewrite F3; destruct r; reflexivity]]].
    cbn [abs_loop] in F1. destruct (abs_step_ok (Move false p) s' false zero zero R' ltac:(discriminate)) as [X _]. destruct (abs_step num add zero false zero zero s') as [s2 [x2 y2]]. cbn [fst shift] in X.
    inversion F1 as [|c0 ? ? ? Rc0]; subst. inversion F2 as [|? ? Ac0]; subst. destruct c0 as [r0 p0|r0 [? ?]|r0 p0|r0 p0|r0 [? ?] [? ?] [? ?]|r0 [? ?] [? ?]|]; [exact I|..]; exfalso; destruct p as [px py]; destruct X as [X _]; cbn in Rc0, Ac0; try subst r0;
      rewrite X in Rc0; (destruct Rc0 as [Rc0 _] || destruct Rc0 as [Rc0|Rc0]); discriminate Rc0.
  Qed.
  Lemma parse_ok text items cs : spelled items text -> path_items num read items cs -> exists sgs, path_parse num add zero read text = Some (absolutize num add zero sgs) /\ Forall2 rep cs sgs.
  Proof.
    intros S P. unfold path_parse. rewrite (fields_spelled _ _ S). destruct (path_ok _ _ P true (mk_pst num 0 (zeros num zero) 0 0 0 []) eq_refl) as (s' & E & [R (sgs & Es & F)]).
    rewrite E. rewrite R. cbn [Nat.eqb]. cbn [p_segs app] in Es. rewrite Es. now exists sgs.
  Qed.
  Lemma paths_ok : forall (paths : list (bytes * list (cmd num))) w,
    Forall (fun p => exists items, spelled items (fst p) /\ path_items num read items (snd p) /\ begins (snd p) /\ tame false (snd p)) paths ->
    exists segs ds, map (fun p => path_parse num add zero read (fst p)) paths = map Some segs /\
      write_paths num add mul zero ox oy scale segs w = Some ds /\ map shows ds = flat_map (fun p => map (moved place) (path_draws add zero (snd p))) paths.
  Proof.
    induction paths as [|[text cs] paths IH]; intros w H; [exists [], []; repeat split|]. inversion H as [|? ? (items & S & P & B & T) Hr]; subst. cbn [fst snd] in *.
    destruct (parse_ok _ _ _ S P) as (sgs & E & F). destruct (first_abs _ _ F B T) as (cs' & B' & F' & A' & D).
    destruct (write_ok cs' (absolutize num add zero sgs) (zero, zero) (zero, zero) w F' A') as (ds & w' & W & M); [apply abs_cmd|right; destruct cs' as [|[] ?]; easy|].
    destruct (IH w' Hr) as (segs & ds2 & E2 & W2 & M2). exists (absolutize num add zero sgs :: segs), (ds ++ ds2). cbn [map fst write_paths flat_map snd]. rewrite E, E2, W, W2. repeat split.
    rewrite map_app, M, D, M2. reflexivity.
  Qed.
End Svg.

(** Paths written with the supported commands are read and drawn as SVG says,
    scaled and moved to the current position; ox and oy are that position. *)
Theorem C42_paths_partial : forall (num : Type) (add mul : num -> num -> num) (zero : num) (read : bytes -> option num) (ox oy scale : num),
  (forall a b, add a b = add b a) ->
  forall paths : list (bytes * list (cmd num)),
  Forall (fun p => exists items, spelled items (fst p) /\ path_items num read items (snd p) /\ begins num (snd p) /\ tame false (snd p)) paths ->
  exists segs ds, map (fun p => path_parse num add zero read (fst p)) paths = map Some segs /\
    svg_write num add mul zero ox oy scale segs = Some ds /\
    map (shows num) ds = flat_map (fun p => map (moved (place num add mul ox oy scale)) (path_draws add zero (snd p))) paths.
Proof. intros num add mul zero read ox oy scale comm paths H. now apply paths_ok. Qed.
Print Assumptions C42_paths_partial.

(** ** What is missing *)
(** a reader of whole numbers *)
Definition read_int (w : bytes) : option Z := match w with 45 :: t => option_map (fun r => - fst r) (read_dec t) | _ => option_map fst (read_dec w) end.
(** A path that meets the hypotheses of [C42_paths_partial]: a relative moveto
    with a second pair of numbers, a relative curve and a close. *)
Example C42_case : exists items, let text := bs "m1,2 3 4q-5 6 7 8z" in let cs := [Move true (1, 2); LineTo true (3, 4); Quad true (-5, 6) (7, 8); Close] in
  spelled items text /\ path_items Z read_int items cs /\ begins Z cs /\ tame false cs /\
  path_draws Z.add 0 cs = [SLine (1, 2) (4, 6); SQuad (4, 6) (-1, 12) (11, 14); SLine (11, 14) (1, 2)].
Proof.
  exists [Letter 109; Word (bs "1"); Word (bs "2"); Word (bs "3"); Word (bs "4"); Letter 113; Word (bs "-5"); Word (bs "6"); Word (bs "7"); Word (bs "8"); Letter 122].
  split; [|split; [|split; [exact I|split; [cbn; repeat split; discriminate|reflexivity]]]].
  - change (bs "m1,2 3 4q-5 6 7 8z") with (109 :: bs "1" ++ 44 :: bs "2" ++ 32 :: bs "3" ++ 32 :: bs "4" ++ 113 :: bs "-5" ++ 32 :: bs "6" ++ 32 :: bs "7" ++ 32 :: bs "8" ++ [122]).
    repeat first [apply sp_end | apply sp_letter; [reflexivity|] | apply sp_sep; [reflexivity|] | apply sp_word; [split; [discriminate|repeat constructor]|cbn; auto|]].
  - apply (pi_cmd Z read_int 109 [bs "1"; bs "2"] _ _ [LineTo true (3, 4)] [Letter 113; Word (bs "-5"); Word (bs "6"); Word (bs "7"); Word (bs "8"); Letter 122] _ (g_move Z read_int true (bs "1") (bs "2") 1 2 eq_refl)).
    + apply (more_group Z read_int _ [bs "3"; bs "4"]); [apply (g_line Z read_int true); reflexivity|right; reflexivity|constructor].
    + apply (pi_cmd Z read_int 113 [bs "-5"; bs "6"; bs "7"; bs "8"] _ [Letter 122] [] _ _ (g_quad Z read_int true (bs "-5") (bs "6") (bs "7") (bs "8") (-5) 6 7 8 eq_refl) (more_done _ _ _ _)).
      apply pi_close; [now right|constructor].
Qed.
(** A relative command after a closed path is counted from the last point instead
    of the start of the closed path. *)
Theorem C42_close_refuted : exists items cs segs ds, let text := bs "M10,10l10 0 0 10zl5,5" in
  spelled items text /\ path_items Z read_int items cs /\ begins Z cs /\
  path_parse Z Z.add 0 read_int text = Some segs /\ svg_write Z Z.add Z.mul 0 0 0 1 [segs] = Some ds /\
  path_draws Z.add 0 cs = [SLine (10, 10) (20, 10); SLine (20, 10) (20, 20); SLine (20, 20) (10, 10); SLine (10, 10) (15, 15)] /\
  map (shows Z) ds = [SLine (10, 10) (20, 10); SLine (20, 10) (20, 20); SLine (20, 20) (10, 10); SLine (10, 10) (25, 25)].
Proof.
  exists [Letter 77; Word (bs "10"); Word (bs "10"); Letter 108; Word (bs "10"); Word (bs "0"); Word (bs "0"); Word (bs "10"); Letter 122; Letter 108; Word (bs "5"); Word (bs "5")].
  exists [Move false (10, 10); LineTo true (10, 0); LineTo true (0, 10); Close; LineTo true (5, 5)].
  eexists. eexists. split; [|split; [|split; [exact I|split; [vm_compute; reflexivity|split; [vm_compute; reflexivity|split; reflexivity]]]]].
  - change (bs "M10,10l10 0 0 10zl5,5") with (77 :: bs "10" ++ 44 :: bs "10" ++ 108 :: bs "10" ++ 32 :: bs "0" ++ 32 :: bs "0" ++ 32 :: bs "10" ++ 122 :: 108 :: bs "5" ++ 44 :: bs "5" ++ []).
    apply sp_letter; [reflexivity|]. apply sp_word; [split; [discriminate|repeat constructor]|cbn; auto|]. apply sp_sep; [reflexivity|]. apply sp_word; [split; [discriminate|repeat constructor]|cbn; auto|].
    apply sp_letter; [reflexivity|]. apply sp_word; [split; [discriminate|repeat constructor]|cbn; auto|]. apply sp_sep; [reflexivity|]. apply sp_word; [split; [discriminate|repeat constructor]|cbn; auto|]. apply sp_sep; [reflexivity|].
    apply sp_word; [split; [discriminate|repeat constructor]|cbn; auto|]. apply sp_sep; [reflexivity|]. apply sp_word; [split; [discriminate|repeat constructor]|cbn; auto|]. apply sp_letter; [reflexivity|]. apply sp_letter; [reflexivity|].
    apply sp_word; [split; [discriminate|repeat constructor]|cbn; auto|]. apply sp_sep; [reflexivity|]. apply sp_word; [split; [discriminate|repeat constructor]|cbn; auto|]. apply sp_end.
  - apply (pi_cmd Z read_int 77 [bs "10"; bs "10"] _ _ [] _ _ (g_move Z read_int false (bs "10") (bs "10") 10 10 eq_refl) (more_done _ _ _ _)).
    apply (pi_cmd Z read_int 108 [bs "10"; bs "0"] _ _ [LineTo true (0, 10)] [Letter 122; Letter 108; Word (bs "5"); Word (bs "5")] _ (g_line Z read_int true (bs "10") (bs "0") 10 0 eq_refl)).
    + apply (more_group Z read_int _ [bs "0"; bs "10"]); [apply (g_line Z read_int true); reflexivity|right; reflexivity|constructor].
    + apply pi_close; [now right|]. apply (pi_cmd Z read_int 108 [bs "5"; bs "5"] _ [] [] [] [] (g_line Z read_int true (bs "5") (bs "5") 5 5 eq_refl) (more_done _ _ _ _)). constructor.
Qed.
Print Assumptions C42_close_refuted.
(** A repeated group of arguments that begins with a decimal point or a plus sign
    is an error, though SVG allows it. *)
Theorem C42_repeat_refuted : forall (num : Type) (add : num -> num -> num) zero read a b, read (bs "1") = Some a -> read (bs ".5") = Some b ->
  path_parse num add zero read (bs "M 1 1 L 1 1") <> None /\ path_parse num add zero read (bs "M 1 1 L 1 1 .5 .5") = None.
Proof.
  intros num add zero read a b H1 H2. vm_compute in H1.
  split; unfold path_parse; set (ws := fields _ _); vm_compute in ws; subst ws; cbn [parse_loop]; repeat (unfold parse_word at 1; cbn; rewrite ?H1; cbn).
  - discriminate.
  - reflexivity.
Qed.
Print Assumptions C42_repeat_refuted.
