(** C81 Imported pages. *)
From Verif Require Import Base TextModel Crypto DocModel DocSpec DocSort DocProofs DocWalk DocParts DocRes DocRes2 DocEnd DocXref DocLayout DocFile DocBack DocProps DocProps2 ResSpec TplModel TplProps ImpModel ImpSpec ResProps.
From Coq Require Import String Permutation.
Open Scope Z_scope.
Notation length := List.length.
Local Notation "a +++ b" := (List.app a b) (at level 60, right associativity, only parsing).
Notation get := (@TplModel.get _).

Lemma get_put {A} k (v : A) m x : get x (put k v m) = if beqb x k then Some v else get x m.
Proof.
  induction m as [|[y w] m IH]; cbn; [reflexivity|]. destruct (beqb k y) eqn:E; cbn.
  - apply beqb_eq in E. subst y. destruct (beqb x k); reflexivity.
  - destruct (beqb x y) eqn:E2; [|exact IH]. apply beqb_eq in E2. subst y. destruct (beqb x k) eqn:E3; [|reflexivity]. apply beqb_eq in E3. subst. now rewrite beqb_refl in E.
Qed.
Lemma put_keys' {A} k (v : A) m k' : In k' (map fst (put k v m)) <-> k' = k \/ In k' (map fst m).
Proof.
  induction m as [|[x w] m IH]; cbn; [intuition|]. destruct (beqb k x) eqn:E; cbn; [apply beqb_eq in E; subst; intuition|]. rewrite IH. intuition.
Qed.
Lemma put_nodup {A} k (v : A) m : NoDup (map fst m) -> NoDup (map fst (put k v m)).
Proof.
  induction m as [|[y w] m IH]; cbn; intros H; [repeat constructor; intros []|]. apply NoDup_cons_iff in H as [H1 H2].
  destruct (beqb k y) eqn:E; cbn; [apply beqb_eq in E; subst; now constructor|]. constructor; [|now apply IH].
  rewrite put_keys'. intros [->|X]; [now rewrite beqb_refl in E|contradiction].
Qed.
Lemma puts_nodup {A} (l : list (bytes * A)) : forall m, NoDup (map fst m) -> NoDup (map fst (fold_left (fun m e => put (fst e) (snd e) m) l m)).
Proof. induction l as [|e l IH]; intros m H; [exact H|]. cbn. apply IH. now apply put_nodup. Qed.
Lemma get_puts {A} (l : list (bytes * A)) : forall m h v, NoDup (map fst l) ->
  (get h (fold_left (fun m e => put (fst e) (snd e) m) l m) = Some v <-> In (h, v) l \/ (~ In h (map fst l) /\ get h m = Some v)).
Proof.
  induction l as [|[k w] l IH]; intros m h v Nd; cbn [fold_left map fst snd] in *; [cbn; tauto|]. apply NoDup_cons_iff in Nd as [N1 N2].
  rewrite (IH _ _ _ N2), get_put. cbn [In]. destruct (beqb h k) eqn:E.
  - apply beqb_eq in E. subst k. split.
    + intros [X|[_ X]]; [now left; right|]. injection X as ->. now left; left.
    + intros [[X|X]|[X _]]; [|now left|destruct X; now left]. injection X as ->. right. now split.
  - assert (N : h <> k) by (intros ->; now rewrite beqb_refl in E). split.
    + intros [X|[X Y]]; [now left; right|]. right. split; [|exact Y]. intros [Z|Z]; [now apply N|contradiction].
    + intros [[X|X]|[X Y]]; [injection X as -> ->; now destruct N|now left|]. right. split; [|exact Y]. intros Z. apply X. now right.
Qed.
Lemma get_in {A} h (v : A) m : NoDup (map fst m) -> (get h m = Some v <-> In (h, v) m).
Proof.
  induction m as [|[k w] m IH]; intros Nd; cbn; [split; [discriminate|intros []]|]. cbn in Nd. apply NoDup_cons_iff in Nd as [N1 N2]. destruct (beqb h k) eqn:E.
  - apply beqb_eq in E. subst k. split; [intros [= ->]; now left|]. intros [X|X]; [now injection X as ->|]. destruct N1. apply (in_map fst) in X. exact X.
  - rewrite (IH N2). split; [now right|]. intros [X|X]; [injection X as -> ->; now rewrite beqb_refl in E|exact X].
Qed.

Lemma last_given_snoc {A} (sel : import_call -> list (bytes * A)) cs c h v :
  last_given sel (cs ++ [c]) h v <-> In (h, v) (sel c) \/ (~ In h (map fst (sel c)) /\ last_given sel cs h v).
Proof.
  split.
  - intros (b & c' & a & E & Hin & N). destruct (@exists_last _ (c' :: a)) as (l & x & El); [discriminate|].
    rewrite El, app_assoc in E. apply app_inj_tail in E as [E1 <-]. destruct a as [|y a].
    + destruct l as [|? [|? ?]]; try discriminate. injection El as ->. now left.
    + assert (Hx : In c (y :: a)). { destruct l as [|z l]; [discriminate|]. injection El as -> Ea. rewrite Ea. apply in_or_app. right. now left. }
      right. split; [now apply N|]. destruct l as [|z l]; [discriminate|]. injection El as -> Ea. exists b, z, l. split; [exact E1|]. split; [exact Hin|].
      intros c'' Hc. apply N. rewrite Ea. apply in_or_app. now left.
  - intros [X|[N (b & c' & a & -> & Hin & N2)]].
    + exists cs, c, []. split; [reflexivity|]. split; [exact X|]. intros ? [].
    + exists b, c', (a ++ [c]). split; [now rewrite <- app_assoc|]. split; [exact Hin|]. intros c'' Hc. apply in_app_or in Hc as [Hc|[<-|[]]]; [now apply N2|exact N].
Qed.

(** After any calls the document has, for every key, the value handed over last. *)
Theorem C81_last_value :
  forall cs, Forall call_ok cs -> let x := import_all cs in
    (NoDup (map fst (ix_objs x)) /\ NoDup (map fst (ix_pos x)) /\ NoDup (map fst (ix_tpls x))) /\
    (forall h v, In (h, v) (ix_objs x) <-> last_given objs_in cs h v) /\
    (forall h ps, In (h, ps) (ix_pos x) <-> last_given pos_in cs h ps) /\
    (forall n h, In (n, h) (ix_tpls x) <-> last_given names_in cs n h).
Proof.
  intros cs Hok. cbv zeta.
  assert (G : (NoDup (map fst (ix_objs (import_all cs))) /\ NoDup (map fst (ix_pos (import_all cs))) /\ NoDup (map fst (ix_tpls (import_all cs)))) /\
    (forall h v, get h (ix_objs (import_all cs)) = Some v <-> last_given objs_in cs h v) /\
    (forall h v, get h (ix_pos (import_all cs)) = Some v <-> last_given pos_in cs h v) /\
    (forall h v, get h (ix_tpls (import_all cs)) = Some v <-> last_given names_in cs h v)).
  { induction cs as [|c cs IH] using rev_ind.
    - split; [repeat split; constructor|]. repeat split; cbn; try discriminate; intros (b & c & a & E & _); destruct b; discriminate E.
    - apply Forall_app in Hok as [H1 H2]. inversion_clear H2 as [|? ? (N1 & N2 & N3) _]. destruct (IH H1) as ((D1 & D2 & D3) & K1 & K2 & K3). clear IH.
      unfold import_all. rewrite fold_left_app. cbn [fold_left]. fold (import_all cs). split.
      + destruct c; cbn [import_one import_objects import_pos import_templates ix_objs ix_pos ix_tpls]; repeat split; auto; now apply puts_nodup.
      + repeat split.
        all: rewrite last_given_snoc, <- ?K1, <- ?K2, <- ?K3.
        all: destruct c; cbn [import_one import_objects import_pos import_templates ix_objs ix_pos ix_tpls objs_in pos_in names_in] in *; try (rewrite get_puts by assumption); cbn [In map]; tauto. }
  destruct G as ((D1 & D2 & D3) & K1 & K2 & K3). split; [auto|].
  split; [|split]; intros; [rewrite <- K1|rewrite <- K2|rewrite <- K3]; symmetry; now apply get_in.
Qed.
Print Assumptions C81_last_value.

Lemma objects_handed cs : Forall call_ok cs -> forall h v ps, In (h, (v, ps)) (objects_of (import_all cs)) <-> handed cs h v ps.
Proof.
  intros Hok h v ps. destruct (C81_last_value cs Hok) as ((D1 & D2 & D3) & K1 & K2 & K3). unfold objects_of, handed. rewrite in_map_iff.
  assert (Nv : forall h, get h (ix_pos (import_all cs)) = None <-> never_given pos_in cs h).
  { intros k. split.
    - intros Hn c Hc Hin. apply in_map_iff in Hin as ([? q] & Eq & Hin). cbn in Eq. subst.
      assert (X : exists q', last_given pos_in cs k q').
      { clear - Hc Hin. revert q Hin. induction cs as [|c' cs IH] using rev_ind; [destruct Hc|]. intros q Hin.
        destruct (in_dec (list_eq_dec Z.eq_dec) k (map fst (pos_in c'))) as [Y|Y].
        - apply in_map_iff in Y as ([? q'] & Eq & Y). cbn in Eq. subst. exists q'. apply last_given_snoc. now left.
        - apply in_app_or in Hc as [Hc|[<-|[]]]; [|destruct Y; apply (in_map fst) in Hin; exact Hin]. destruct (IH Hc q Hin) as (q' & L). exists q'. apply last_given_snoc. right. now split. }
      destruct X as (q' & L). apply K2, (proj2 (get_in _ _ _ D2)) in L. congruence.
    - intros N. destruct (get k (ix_pos (import_all cs))) eqn:E; [|reflexivity]. apply (get_in _ _ _ D2) in E. apply K2 in E as (b & c & a & -> & Hin & _).
      destruct (N c); [apply in_or_app; right; now left|]. apply (in_map fst) in Hin. exact Hin. }
  split.
  - intros ([k w] & Eq & Hin). cbn [fst snd] in Eq. injection Eq as -> -> Ep. split; [now apply K1|].
    destruct (get h (ix_pos (import_all cs))) as [q|] eqn:E; [left; subst; apply K2, (get_in _ _ _ D2); exact E|right; split; [now symmetry|]; now apply Nv].
  - intros (L & P). exists (h, v). split; [|now apply K1]. cbn [fst snd]. f_equal. f_equal. destruct P as [P|[-> P]].
    + apply K2, (proj2 (get_in _ _ _ D2)) in P. now rewrite P.
    + apply Nv in P. now rewrite P.
Qed.

(** Partial: for an importer whose references are [references_ok] and whose objects end with endobj ([well_formed]). *)
Theorem C81_imported_partial :
  forall (E : env) (d : doc (e_num E)) (pre : bytes) (cs : list import_call),
    Forall call_ok cs -> references_ok cs -> d_impobjs d = objects_of (import_all cs) -> d_imptpls d = ix_tpls (import_all cs) ->
    well_formed d -> finished d pre -> zlength (file_of d pre) < 10 ^ 10 ->
    exists K : bytes -> Z,
      (* every object is in the file under the number of its hash, its references filled in *)
      (forall h v ps, handed cs h v ps -> imported_at (object_in (file_of d pre)) K (h, (v, ps))) /\
      (* different objects have different numbers *)
      (forall h h' v v', last_given objs_in cs h v -> last_given objs_in cs h' v' -> K h = K h' -> h = h') /\
      (* the resource dictionary has the name of every page, and no other one *)
      (resources_sound d -> exists a b l, object_in (file_of d pre) 2 (a +++ imported_names K l +++ b) /\
        NoDup (map fst l) /\ forall n h, In (n, h) l <-> last_given names_in cs n h).
Proof.
  intros E d pre cs Hok Rf Eo Et W F Sz. destruct (resources_and_imports E d pre W F Sz) as (body & K & H1 & H2 & H3).
  destruct (C81_last_value cs Hok) as ((D1 & D2 & D3) & K1 & K2 & K3). pose proof (objects_handed cs Hok) as Hh.
  assert (Keys : map fst (d_impobjs d) = map fst (ix_objs (import_all cs))). { rewrite Eo. unfold objects_of. now rewrite map_map. }
  assert (In1 : forall h, (exists v, last_given objs_in cs h v) -> In h (map fst (d_impobjs d))).
  { intros h (v & L). rewrite Keys. apply K1 in L. apply (in_map fst) in L. exact L. }
  assert (IS : imports_sound d).
  { constructor.
    - now rewrite Keys.
    - intros [h [v ps]] pos h' He Hp. cbn [snd] in Hp. rewrite Eo in He. apply Hh in He. destruct (Rf h v ps He) as (R1 & _). destruct (R1 pos h' Hp) as (Q & L). split; [exact Q|now apply In1].
    - intros [h [v ps]] p q He Hp Hq. cbn [snd] in Hp, Hq. rewrite Eo in He. apply Hh in He. destruct (Rf h v ps He) as (_ & R2). now apply R2. }
  destruct (H3 IS) as (H3a & H3b). exists K. split; [|split].
  - intros h v ps Hd. apply H3a. rewrite Eo. now apply Hh.
  - intros h h' v v' L L'. apply H3b; apply In1; eauto.
  - intros RS. destruct (H2 RS) as (fonts & images & templates & imported & states & shadings & layers & spaces & Eb & (l & Pl & Ei) & _).
    subst imported.
    exists (bs "<<" +++ eol +++ bs "/ProcSet [/PDF /Text /ImageB /ImageC /ImageI]" +++ eol +++ section (bs "/Font") fonts +++ bs "/XObject <<" +++ eol +++ names images +++ names templates),
      (bs ">>" +++ eol +++ unless_empty (d_blends d) (section (bs "/ExtGState") states) +++ unless_empty (d_grads d) (section (bs "/Shading") shadings) +++
           unless_empty (d_layers d) (section (bs "/Properties") layers) +++ section (bs "/ColorSpace") spaces +++ bs ">>" +++ eol), l. split.
    + rewrite Eb in H1. rewrite <- !app_assoc. exact H1.
    + rewrite Et in Pl. split; [eapply Permutation_NoDup; [apply Permutation_map, Permutation_sym, Pl|exact D3]|].
      intros n h. rewrite <- K3. split; intros X; eapply Permutation_in; [exact Pl|exact X|apply Permutation_sym, Pl|exact X].
Qed.
Print Assumptions C81_imported_partial.

(** ** A page in two objects; the first refers to the second, the second to both; the first call is replaced by a later one *)
Definition hash (c : Z) : bytes := repeat c 40.
Definition data1 : bytes := bs "<</A " +++ hash 97 +++ bs " 0 R>>" +++ eol +++ bs "endobj" +++ eol.
Definition data2 : bytes := bs "<</B " +++ hash 98 +++ bs " 0 R /C " +++ hash 97 +++ bs " 0 R>>" +++ eol +++ bs "endobj" +++ eol.
Definition calls : list import_call :=
  [Objects [(hash 98, bs "old")]; Names [(bs "/GOFPDITPL1", hash 98)];
   Objects [(hash 97, data2); (hash 98, data1)]; Positions [(hash 98, [(5, hash 97)]); (hash 97, [(53, hash 97); (5, hash 98)])]].
Definition with_imports (prot : option protect) (x : imports) : doc Z :=
  let d := doc0 [page0 (bs "first") []] 1 [] [] [] [] prot in {|
  d_pages := d_pages d; d_page := d_page d; d_k := d_k d; d_h := d_h d; d_defw := d_defw d; d_defh := d_defh d; d_links := d_links d;
  d_alias := d_alias d; d_aliasnb := d_aliasnb d; d_atts := d_atts d; d_docatts := d_docatts d; d_version := d_version d; d_blendmap := d_blendmap d;
  d_compress := d_compress d; d_sort := d_sort d; d_gsort := d_gsort d; d_protect := d_protect d; d_layers := d_layers d; d_pane := d_pane d;
  d_blends := d_blends d; d_grads := d_grads d; d_spots := d_spots d; d_diffs := d_diffs d; d_files := d_files d; d_fonts := d_fonts d;
  d_images := d_images d; d_tpls := d_tpls d;
  d_impobjs := objects_of x; d_imptpls := ix_tpls x; d_js := d_js d; d_xmp := d_xmp d; d_outlines := d_outlines d;
  d_producer := d_producer d; d_title := d_title d; d_subject := d_subject d; d_author := d_author d; d_keywords := d_keywords d; d_creator := d_creator d;
  d_created := d_created d; d_modified := d_modified d; d_zoom := d_zoom d; d_layout := d_layout d; d_pagesizes := d_pagesizes d |}.
Definition doc_imp : doc Z := with_imports None (import_all calls).
Lemma calls_ok : Forall call_ok calls.
Proof. unfold calls. repeat constructor; cbn; intuition discriminate. Qed.
Lemma calls_objects : objects_of (import_all calls) = [(hash 98, (data1, [(5, hash 97)])); (hash 97, (data2, [(53, hash 97); (5, hash 98)]))].
Proof. vm_compute. reflexivity. Qed.
Lemma calls_refs : references_ok calls.
Proof.
  assert (G : forall h, h = hash 97 \/ h = hash 98 -> exists v, last_given objs_in calls h v).
  { intros h Hh. destruct (C81_last_value calls calls_ok) as (_ & K1 & _). destruct Hh as [-> | ->]; eexists; apply K1; [right; left; reflexivity|left; reflexivity]. }
  intros h v ps H. apply (objects_handed calls calls_ok) in H. rewrite calls_objects in H. destruct H as [H|[H|[]]]; injection H as <- <- <-.
  - split; [intros pos h' [[= <- <-]|[]]; split; [lia|apply G; now left]|]. intros p q [<-|[]] [<-|[]]. now left.
  - split; [intros pos h' [[= <- <-]|[[= <- <-]|[]]]; (split; [lia|apply G; auto])|]. intros p q [<-|[<-|[]]] [<-|[<-|[]]]; cbn [fst]; try (now left); right; lia.
Qed.
Lemma imp_wf prot : well_formed (E := env0) (with_imports prot (import_all calls)).
Proof.
  constructor; try (intros; contradiction); [reflexivity|apply env0_fmt|].
  intros e He. cbn [with_imports d_impobjs] in He. rewrite calls_objects in He. destruct He as [<-|[<-|[]]]; cbn [fst snd].
  - exists (bs "<</A " +++ hash 97 +++ bs " 0 R>>" +++ eol), eol. split; [reflexivity|]. split; [repeat constructor|]. repeat constructor; vm_compute; discriminate.
  - exists (bs "<</B " +++ hash 98 +++ bs " 0 R /C " +++ hash 97 +++ bs " 0 R>>" +++ eol), eol. split; [reflexivity|]. split; [repeat constructor|]. repeat constructor; vm_compute; discriminate.
Qed.
Definition blank (n : nat) : bytes := repeat 32 n.
Example C81_ex : d_impobjs doc_imp = objects_of (import_all calls) /\ d_imptpls doc_imp = ix_tpls (import_all calls) /\ finished (E := env0) doc_imp [] /\
  zlength (file_of (E := env0) doc_imp []) < 10 ^ 10 /\ resources_sound (E := env0) doc_imp /\
  rest_of (file_of (E := env0) doc_imp []) 5 [] = bs "<</A " +++ blank 39 +++ bs "6 0 R>>" +++ eol /\
  rest_of (file_of (E := env0) doc_imp []) 6 [] = bs "<</B " +++ blank 39 +++ bs "5 0 R /C " +++ blank 39 +++ bs "6 0 R>>" +++ eol /\
  containsb (bs "/XObject <<" +++ eol +++ bs "/GOFPDITPL1 5 0 R" +++ eol +++ bs ">>") (rest_of (file_of (E := env0) doc_imp []) 2 []) = true.
Proof.
  split; [reflexivity|]. split; [reflexivity|]. split; [split; vm_compute; reflexivity|]. split; [vm_compute; reflexivity|].
  split; [constructor; try (intros; contradiction); constructor|]. repeat split; vm_compute; reflexivity.
Qed.

(** *** A protected document: the imported objects are not encrypted, although the file says that every string and stream is.  A reader
    decrypts what was never encrypted, and whoever has not the password reads the imported pages. *)
Definition secret : bytes := bs "the secret page".
Definition data3 : bytes := bs "<</Length 15>>" +++ eol +++ bs "stream" +++ eol +++ secret +++ eol +++ bs "endstream" +++ eol +++ bs "endobj" +++ eol.
Definition calls_prot : list import_call := [Names [(bs "/GOFPDITPL1", hash 97)]; Objects [(hash 97, data3)]].
Definition doc_prot_imp : doc Z := with_imports (Some prot0) (import_all calls_prot).
Theorem C81_protected_refuted :
  Forall call_ok calls_prot /\ references_ok calls_prot /\ d_protect doc_prot_imp <> None /\
  finished (E := env0) doc_prot_imp [] /\
  exists k, stream_in (file_of (E := env0) doc_prot_imp []) k secret /\ stored (E := env0) doc_prot_imp k secret <> secret.
Proof.
  assert (Ok : Forall call_ok calls_prot) by (repeat constructor; cbn; intuition discriminate).
  split; [exact Ok|]. split.
  { intros h v ps H. apply (objects_handed calls_prot Ok) in H. vm_compute in H. destruct H as [H|[]]. injection H as <- <- <-. split; [intros ? ? []|intros ? ? []]. }
  split; [discriminate|]. split; [split; vm_compute; reflexivity|].
  exists 5. split.
  - set (f := file_of (E := env0) doc_prot_imp []). assert (Ef : f = file_of (E := env0) doc_prot_imp []) by reflexivity. clearbody f.
    eexists. split; [apply (check_object_in _ (find_xref f 0) _ (rest_of f 5 [])); rewrite Ef; vm_compute; reflexivity|].
    exists (until (bs "stream") (rest_of f 5 [])). rewrite Ef. split; vm_compute; reflexivity.
  - intros H. apply (f_equal (fun l => nth 0 l 0)) in H. revert H. vm_compute. discriminate.
Qed.
Print Assumptions C81_protected_refuted.
