(** Property theorems C27: alias substitution, on the bytes of the file. *)
From Verif Require Import Base TextModel TextSpec TextProofs Crypto DocModel DocSpec DocBack DocProps AliasProofs.
From Coq Require Import String Permutation.
Open Scope Z_scope.
Local Notation "a +++ b" := (List.app a b) (at level 60, right associativity, only parsing).

(** what the caller registered: RegisterAlias pairs, and the alias of
    AliasNbPages for the number of pages, which wins over a pair of the same
    name *)
Definition registered {E} (d : doc (e_num E)) (pages : Z) : list (bytes * bytes) :=
  match d_aliasnb d with
  | [] => d_alias d
  | nb => (nb, dec pages) :: filter (fun e => negb (beqb (fst e) nb)) (d_alias d)
  end.
(** the same in UTF-16BE, as text in a UTF-8 font is written *)
Definition wide16 (s : bytes) : bytes := match utf8toutf16 s false with Ret b => b | _ => [] end.
Definition wide_pairs (m : list (bytes * bytes)) : list (bytes * bytes) := map (fun e => (wide16 (fst e), wide16 (snd e))) m.

Lemma alias_map_registered {E} (d : doc (e_num E)) : alias_map d = registered d (d_page d).
Proof. unfold alias_map, registered, zlen. destruct (d_aliasnb d); reflexivity. Qed.

Lemma subst_alias_all al rp s : al <> [] -> subst_alias al rp s = replace_all al rp s.
Proof.
  intros Ha. unfold subst_alias. destruct (containsb al s) eqn:Ec; [destruct al; [easy|reflexivity]|].
  symmetry. now apply replace_all_none.
Qed.

Lemma replace_aliases_spec {E} (d : doc (e_num E)) s :
  (forall site A (l : list A), Permutation (e_shuffle E site A l) l) ->
  let m := registered d (d_page d) in independent m -> independent (wide_pairs m) ->
  exists mid, replaced m s mid /\ replaced (wide_pairs m) mid (replace_aliases d s).
Proof.
  intros Hp m I1 I2. unfold replace_aliases. rewrite alias_map_registered. fold m.
  set (mid := fold_left _ _ s) at 1. exists mid. split.
  - unfold mid. eapply replaced_same; [|apply fold_replaced].
    + intros e. split; intros H; [eapply Permutation_in; [|exact H]; apply Hp|]. eapply Permutation_in; [|exact H]. apply Permutation_sym, Hp.
    + intros al rp t Ha. now apply subst_alias_all.
    + eapply independent_perm; [apply Permutation_sym, Hp|exact I1].
  - assert (Ef : forall l t, fold_left (fun s p => subst_alias (to16 (fst p)) (to16 (snd p)) s) l t
                  = fold_left (fun s p => subst_alias (fst p) (snd p) s) (wide_pairs l) t).
    { induction l as [|e l IH]; intros t; [reflexivity|]. cbn [fold_left wide_pairs map fst snd]. apply IH. }
    rewrite Ef. eapply replaced_same; [|apply fold_replaced].
    + intros e. unfold wide_pairs. rewrite !in_map_iff. split; intros (x & Hx & Hin); exists x; (split; [exact Hx|]); (eapply Permutation_in; [|exact Hin]); [apply Hp|apply Permutation_sym, Hp].
    + intros al rp t Ha. now apply subst_alias_all.
    + eapply independent_perm; [|exact I2]. unfold wide_pairs. apply Permutation_map, Permutation_sym, Hp.
Qed.

(** C27: when no alias overlaps another alias or the replacement of another,
    whatever order the map of aliases is visited in, the content of every page
    is the given content with each alias replaced, first as it is and then in
    UTF-16 form, and nothing else changed; the page count replaces the alias of
    AliasNbPages.  Missing for the full property: see the refutations below *)
Theorem C27_aliases_partial :
  forall (E : env) (d : doc (e_num E)) (pre : bytes),
    well_formed d -> finished d pre -> zlength (file_of d pre) < 10 ^ 10 ->
    d_page d = zlen (d_pages d) ->
    let m := registered d (zlen (d_pages d)) in
    independent m -> independent (wide_pairs m) ->
    exists kids, page_tree (file_of d pre) kids /\ List.length kids = List.length (d_pages d) /\
      forall i pg, nth_error (d_pages d) i = Some pg -> exists k t mid out,
        nth_error kids i = Some k /\ page_object (file_of d pre) k t (k + 1) /\
        stream_in (file_of d pre) (k + 1) (stored d (k + 1) (packed d out)) /\
        replaced m (pg_content pg) mid /\ replaced (wide_pairs m) mid out.
Proof.
  intros E d pre W F S Hp m I1 I2. destruct (C15_page_tree_partial E d pre W F S Hp) as (kids & T & _ & L & H).
  exists kids. split; [exact T|]. split; [exact L|]. intros i pg Hi. destruct (H i pg Hi) as (k & t & H1 & H2 & H3).
  unfold m in I1, I2. rewrite <- Hp in I1, I2.
  destruct (replace_aliases_spec d (pg_content pg) (wf_order _ W) I1 I2) as (mid & R1 & R2).
  exists k, t, mid, (replace_aliases d (pg_content pg)). unfold m. rewrite <- Hp. tauto.
Qed.
Print Assumptions C27_aliases_partial.

(** ASCII aliases and replacements: being independent is enough *)
Definition ascii_text (s : bytes) : Prop := Forall (fun c => 0 < c < 128) s.
Definition wide (s : bytes) : bytes := flat_map (fun c => [0; c]) s.
Lemma wide16_ascii s : ascii_text s -> wide16 s = wide s.
Proof.
  intros H. unfold wide16, utf8toutf16. assert (utf16_loop s = Ret (wide s)) as ->; [|reflexivity].
  induction H as [|c s Hc _ IH]; [reflexivity|]. cbn [utf16_loop wide flat_map].
  replace (224 <=? c) with false by lia. replace (192 <=? c) with false by lia. now rewrite IH.
Qed.
Lemma wide_app a b : wide (a ++ b) = wide a ++ wide b.
Proof. apply flat_map_app. Qed.
Lemma wide_split u x r : wide u = x ++ r ->
  (exists u1 u2, u = u1 ++ u2 /\ x = wide u1 /\ r = wide u2) \/
  (exists u1 c u2, u = u1 ++ c :: u2 /\ x = wide u1 ++ [0] /\ r = c :: wide u2).
Proof.
  revert x. induction u as [|c u IH]; intros x H.
  - symmetry in H. apply app_eq_nil in H as [-> ->]. left. now exists [], [].
  - destruct x as [|a x]; [left; now exists [], (c :: u)|]. destruct x as [|b x].
    + injection H as <- <-. right. now exists [], c, u.
    + injection H as <- <- H. destruct (IH x H) as [(u1 & u2 & -> & -> & ->)|(u1 & e & u2 & -> & -> & ->)].
      * left. now exists (c :: u1), u2.
      * right. now exists (c :: u1), e, u2.
Qed.
Lemma wide_head s r c : wide s = c :: r -> c = 0.
Proof. destruct s; [discriminate|]. now intros [= <- _]. Qed.
Lemma wide_len s : List.length (wide s) = (2 * List.length s)%nat.
Proof. induction s as [|c s IH]; [reflexivity|]. change (wide (c :: s)) with (0 :: c :: wide s). cbn [List.length]. rewrite IH. lia. Qed.
Lemma wide_prefix v x r : ascii_text v -> v <> [] -> forall u, ascii_text u -> wide u = x ++ r -> (exists y z, y <> [] /\ r = y ++ z /\ exists w, wide v = y ++ w) ->
  exists u1 u2, u = u1 ++ u2 /\ x = wide u1 /\ r = wide u2.
Proof.
  intros Hv Hne u Hu H (y & z & Hy & -> & w & Hw). destruct (wide_split _ _ _ H) as [G|(u1 & c & u2 & -> & -> & Hr)]; [exact G|].
  exfalso. destruct y as [|b y]; [easy|]. injection Hr as -> _. apply wide_head in Hw as ->.
  unfold ascii_text in Hu. rewrite Forall_app in Hu. destruct Hu as [_ Hu]. inversion Hu. lia.
Qed.
Lemma wide_inj a b : wide a = wide b -> a = b.
Proof. revert b. induction a as [|c a IH]; intros [|e b] H; try discriminate; [reflexivity|]. injection H as -> H. f_equal. now apply IH. Qed.
Lemma wide_meets u v : ascii_text u -> ascii_text v -> u <> [] -> v <> [] -> meets (wide u) (wide v) -> meets u v.
Proof.
  assert (OV : forall u v, ascii_text u -> ascii_text v -> v <> [] -> (exists x y z, y <> [] /\ wide u = x ++ y /\ wide v = y ++ z) ->
     exists x y z, y <> [] /\ u = x ++ y /\ v = y ++ z).
  { clear. intros u v Hu Hv Nv (x & y & z & Hy & H1 & H2).
    destruct (wide_prefix v x y Hv Nv u Hu H1) as (u1 & u2 & -> & -> & ->). { exists y, []. rewrite app_nil_r. eauto. }
    destruct (wide_split _ _ _ H2) as [(v1 & v2 & -> & E1 & ->)|(v1 & c & v2 & -> & E1 & _)].
    - apply wide_inj in E1 as ->. exists u1, v1, v2. split; [|tauto]. intros ->. now apply Hy.
    - exfalso. assert (List.length (wide u2) = List.length (wide v1 ++ [0])) by now rewrite E1. rewrite app_length, !wide_len in H. cbn in H. lia. }
  assert (IN : forall u v, ascii_text u -> ascii_text v -> v <> [] -> (exists x z, wide u = x ++ wide v ++ z) -> exists x z, u = x ++ v ++ z).
  { clear. intros u v Hu Hv Nv (x & z & H).
    destruct (wide_prefix v x (wide v ++ z) Hv Nv u Hu H) as (u1 & u2 & -> & _ & H2).
    { exists (wide v), z. split; [destruct v; [easy|discriminate]|]. split; [reflexivity|]. exists []. now rewrite app_nil_r. }
    destruct (wide_split u2 (wide v) z (eq_sym H2)) as [(v1 & v2 & -> & E1 & _)|(v1 & c & v2 & -> & E1 & _)].
    - apply wide_inj in E1 as ->. now exists u1, v2.
    - exfalso. assert (List.length (wide v) = List.length (wide v1 ++ [0])) by now rewrite E1. rewrite app_length, !wide_len in H0. cbn in H0. lia. }
  intros Hu Hv Nu Nv [H|[H|[H|H]]].
  - left. now apply OV.
  - right. left. now apply OV.
  - right. right. left. now apply IN.
  - right. right. right. now apply IN.
Qed.
Lemma independent_wide m : (forall al rp, In (al, rp) m -> ascii_text al /\ ascii_text rp) -> independent m -> independent (wide_pairs m).
Proof.
  intros Ha (ND & NE & AP).
  assert (Ew : wide_pairs m = map (fun e => (wide (fst e), wide (snd e))) m).
  { unfold wide_pairs. apply map_ext_in. intros [a r] Hin. destruct (Ha a r Hin). cbn. now rewrite !wide16_ascii. }
  rewrite Ew. split; [|split].
  - rewrite map_map. cbn [fst]. rewrite <- (map_map fst wide). apply FinFun.Injective_map_NoDup; [exact wide_inj|exact ND].
  - intros al rp Hin. apply in_map_iff in Hin as ([a r] & [= <- <-] & Hin). destruct (NE a r Hin). cbn. split; (destruct a, r; easy).
  - intros al rp al' rp' H1 H2 Hd. apply in_map_iff in H1 as ([a r] & [= <- <-] & H1). apply in_map_iff in H2 as ([a' r'] & [= <- <-] & H2).
    cbn [fst snd] in *. destruct (AP a r a' r' H1 H2) as [M1 M2]; [congruence|]. destruct (Ha _ _ H1), (Ha _ _ H2), (NE _ _ H1), (NE _ _ H2).
    split; intros M; [apply M1|apply M2]; apply wide_meets; auto.
Qed.
Lemma replaced_absent m s s' : (forall al rp, In (al, rp) m -> ~ exists a b, s = a ++ al ++ b) -> replaced m s s' -> s' = s.
Proof.
  intros H R. induction R as [|al rp t t' Hin _ IH|c t t' _ _ IH]; [reflexivity| |].
  - exfalso. apply (H al rp Hin). now exists [], t.
  - f_equal. apply IH. intros al rp Hin (a & b & E). apply (H al rp Hin). exists (c :: a), b. now rewrite E.
Qed.

Theorem C27_ascii_partial :
  forall (E : env) (d : doc (e_num E)) (pre : bytes),
    well_formed d -> finished d pre -> zlength (file_of d pre) < 10 ^ 10 ->
    d_page d = zlen (d_pages d) ->
    let m := registered d (zlen (d_pages d)) in
    independent m -> (forall al rp, In (al, rp) m -> ascii_text al /\ ascii_text rp) ->
    exists kids, page_tree (file_of d pre) kids /\ List.length kids = List.length (d_pages d) /\
      forall i pg, nth_error (d_pages d) i = Some pg -> ~ In 0 (pg_content pg) -> exists k t out,
        nth_error kids i = Some k /\ page_object (file_of d pre) k t (k + 1) /\
        stream_in (file_of d pre) (k + 1) (stored d (k + 1) (packed d out)) /\
        replaced m (pg_content pg) out.
Proof.
  intros E d pre W F S Hp m I Ha. destruct (C27_aliases_partial E d pre W F S Hp I (independent_wide _ Ha I)) as (kids & T & L & H).
  exists kids. split; [exact T|]. split; [exact L|]. intros i pg Hi Hz. destruct (H i pg Hi) as (k & t & mid & out & H1 & H2 & H3 & R1 & R2).
  exists k, t, out. split; [exact H1|]. split; [exact H2|]. split; [exact H3|].
  assert (out = mid) as ->; [|exact R1]. eapply replaced_absent; [|exact R2].
  assert (Zm : ~ In 0 mid).
  { revert Hz. clear - R1 Ha. fold m in R1. induction R1 as [|al rp t t' Hin _ IH|c t t' _ _ IH]; intros Hz; [easy| |].
    - rewrite in_app_iff in *. intros [X|X]; [|tauto]. destruct (Ha al rp Hin) as [_ A]. unfold ascii_text in A. rewrite Forall_forall in A. specialize (A _ X). lia.
    - cbn in *. tauto. }
  intros al rp Hin (a & b & Em). apply in_map_iff in Hin as ([x y] & [= <- <-] & Hin). fold m in Hin.
  destruct (Ha x y Hin) as [A _]. cbn [fst] in Em. rewrite wide16_ascii in Em by exact A.
  destruct I as (_ & NE & _). destruct (NE x y Hin) as [Nx _]. destruct x; [easy|]. apply Zm. rewrite Em, !in_app_iff. right. left. now left.
Qed.
Print Assumptions C27_ascii_partial.

(** the two properties of the result the caller relies on: it is determined,
    and the alias of AliasNbPages stands for the number of pages *)
Theorem C27_determined m s a b : independent m -> replaced m s a -> replaced m s b -> a = b.
Proof. intros I. now apply replaced_unique. Qed.
Theorem C27_page_count {E} (d : doc (e_num E)) n : d_aliasnb d <> [] -> In (d_aliasnb d, dec n) (registered d n).
Proof. unfold registered. destruct (d_aliasnb d); [easy|]. now left. Qed.
Print Assumptions C27_determined.
Print Assumptions C27_page_count.

(** Refutations.  A document with aliases and one page *)
Definition doc_alias (al : list (bytes * bytes)) (nb : bytes) (pages : list bytes) : doc Z :=
  let d := doc0 (map (fun c => page0 c []) pages) (zlen pages) [] [] [] [] None in
  {| d_pages := d_pages d; d_page := d_page d; d_k := d_k d; d_h := d_h d; d_defw := d_defw d; d_defh := d_defh d; d_links := d_links d;
     d_alias := al; d_aliasnb := nb; d_atts := []; d_docatts := []; d_version := d_version d; d_blendmap := false;
     d_compress := false; d_sort := true; d_gsort := true; d_protect := None; d_layers := []; d_pane := false;
     d_blends := []; d_grads := []; d_spots := []; d_diffs := []; d_files := []; d_fonts := []; d_images := []; d_tpls := [];
     d_impobjs := []; d_imptpls := []; d_js := None; d_xmp := []; d_outlines := [];
     d_producer := []; d_title := []; d_subject := []; d_author := []; d_keywords := []; d_creator := [];
     d_created := bs "D:2000"; d_modified := bs "D:2001"; d_zoom := []; d_layout := []; d_pagesizes := fun _ => None |}.
Lemma doc_alias_wf al nb pages : well_formed (E := env0) (doc_alias al nb pages).
Proof.
  constructor; cbn; try easy.
  - intros x. apply env0_fmt.
Qed.

(** an alias with a parenthesis: CellFormat escapes it in the content, and it is not found there; the
    reader of the page sees the alias, not the replacement *)
Definition cell_line (txt : bytes) : bytes :=
  bs "BT 0 0 Td " +++ match cell_operand false (fun x => utf8toutf16 x false) txt with Ret o => o | _ => [] end +++ bs " Tj ET".
Theorem C27_parenthesis_refuted :
  let al := bs "(n)" in
  let d := doc_alias [(al, bs "seven")] [] [cell_line (bs "page (n)")] in
  let out := replace_aliases (E := env0) d (cell_line (bs "page (n)")) in
  out = cell_line (bs "page (n)") /\ containsb (bs "seven") (file_of (E := env0) d []) = false /\
  read_string (skipn 10 out) = Some (bs "page (n)", bs " Tj ET").
Proof. cbv zeta. split; [|split]; vm_compute; reflexivity. Qed.
(** two aliases, one being the replacement of the other: replaced twice or not according to the order in
    which Go visits the map *)
Definition with_map_order (f : forall A, list A -> list A) : env :=
  {| e_num := Z; e_nadd := Z.add; e_nsub := Z.sub; e_nmul := Z.mul; e_nopp := Z.opp; e_ntwo := 2;
     e_fmt2 := e_fmt2 env0; e_fmt3 := e_fmt3 env0; e_fmt5 := e_fmt5 env0; e_pct3 := e_pct3 env0; e_zlib := e_zlib env0; e_md5 := e_md5 env0;
     e_hex := e_hex env0; e_shuffle := fun _ A l => f A l; e_to_unicode := e_to_unicode env0 |}.
Theorem C27_order_refuted :
  let d := doc_alias [(bs "{a}", bs "{b}"); (bs "{b}", bs "x")] [] [bs "({a}) Tj"] in
  replace_aliases (E := with_map_order (fun A l => l)) d (bs "({a}) Tj") = bs "(x) Tj" /\
  replace_aliases (E := with_map_order (fun A l => rev l)) d (bs "({a}) Tj") = bs "({b}) Tj" /\
  replaced (d_alias d) (bs "({a}) Tj") (bs "({b}) Tj").
Proof.
  cbv zeta. split; [vm_compute; reflexivity|]. split; [vm_compute; reflexivity|].
  change (bs "({a}) Tj") with (40 :: (bs "{a}" ++ bs ") Tj")). change (bs "({b}) Tj") with (40 :: (bs "{b}" ++ bs ") Tj")).
  apply rep_copy. { intros al rp u [[= <- <-]|[[= <- <-]|[]]]; discriminate. }
  apply rep_alias; [now left|]. repeat (apply rep_copy; [intros al rp u [[= <- <-]|[[= <- <-]|[]]]; discriminate|]). constructor.
Qed.
Print Assumptions C27_parenthesis_refuted.
Print Assumptions C27_order_refuted.

(** non-vacuity: a two page document with an alias and the page count *)
Definition doc_alias_ok : doc Z := doc_alias [(bs "{name}", bs "Jane")] (bs "{nb}") [bs "({name}, 1 of {nb}) Tj"; bs "(2/{nb}) Tj"].
Lemma disjoint_meets_dec u v : (if existsb (fun i => match skipn i u with [] => false | y => prefixb y v || prefixb v y end) (seq 0 (List.length u)) then true
   else existsb (fun i => match skipn i v with [] => false | y => prefixb y u || prefixb u y end) (seq 0 (List.length v))) = false -> u <> [] -> v <> [] -> ~ meets u v.
Proof.
  intros H Hu Hv M.
  assert (G : forall u v, existsb (fun i => match skipn i u with [] => false | y => prefixb y v || prefixb v y end) (seq 0 (List.length u)) = false ->
     forall x y, u = x ++ y -> y <> [] -> prefixb y v || prefixb v y = false).
  { clear. intros u v H x y -> Hy. destruct (prefixb y v || prefixb v y) eqn:Ep; [|reflexivity]. rewrite <- H. symmetry. apply existsb_exists.
    exists (List.length x). split; [apply in_seq; rewrite app_length; destruct y; [easy|cbn; lia]|].
    rewrite skipn_app, skipn_all, Nat.sub_diag. cbn. destruct y; [easy|exact Ep]. }
  destruct (existsb _ (seq 0 (List.length u))) eqn:H1; [discriminate|].
  pose proof (G u v H1) as G1. pose proof (G v u H) as G2.
  destruct M as [(x & y & z & Hy & -> & ->)|[(x & y & z & Hy & -> & ->)|[(x & z & ->)|(x & z & ->)]]].
  - specialize (G1 x y eq_refl Hy). apply orb_false_iff in G1 as [G1 _].
    assert (prefixb y (y ++ z) = true) by (apply prefixb_spec; now exists z). congruence.
  - specialize (G2 x y eq_refl Hy). apply orb_false_iff in G2 as [G2 _].
    assert (prefixb y (y ++ z) = true) by (apply prefixb_spec; now exists z). congruence.
  - assert (Hn : v ++ z <> []) by (destruct v; easy). specialize (G1 x (v ++ z) eq_refl Hn). apply orb_false_iff in G1 as [_ G1].
    assert (prefixb v (v ++ z) = true) by (apply prefixb_spec; now exists z). congruence.
  - assert (Hn : u ++ z <> []) by (destruct u; easy). specialize (G2 x (u ++ z) eq_refl Hn). apply orb_false_iff in G2 as [_ G2].
    assert (prefixb u (u ++ z) = true) by (apply prefixb_spec; now exists z). congruence.
Qed.
Example C27_ex : well_formed (E := env0) doc_alias_ok /\ finished (E := env0) doc_alias_ok [] /\
  independent (registered (E := env0) doc_alias_ok 2) /\
  (forall al rp, In (al, rp) (registered (E := env0) doc_alias_ok 2) -> ascii_text al /\ ascii_text rp) /\
  replace_aliases (E := env0) doc_alias_ok (bs "({name}, 1 of {nb}) Tj") = bs "(Jane, 1 of 2) Tj".
Proof.
  split; [apply doc_alias_wf|]. split; [split; vm_compute; reflexivity|]. split; [|split; [|vm_compute; reflexivity]].
  - change (registered (E := env0) doc_alias_ok 2) with [(bs "{nb}", bs "2"); (bs "{name}", bs "Jane")]. split; [|split].
    + repeat constructor; cbn; intuition discriminate.
    + intros al rp [[= <- <-]|[[= <- <-]|[]]]; split; discriminate.
    + intros al rp al' rp' [[= <- <-]|[[= <- <-]|[]]] [[= <- <-]|[[= <- <-]|[]]] Hd; try (now destruct Hd);
        split; apply disjoint_meets_dec; (discriminate || (vm_compute; reflexivity)).
  - change (registered (E := env0) doc_alias_ok 2) with [(bs "{nb}", bs "2"); (bs "{name}", bs "Jane")].
    intros al rp [[= <- <-]|[[= <- <-]|[]]]; split; vm_compute; repeat constructor.
Qed.
