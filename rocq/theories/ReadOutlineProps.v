(** C92: the reader gets the bookmarks back. *)
From Verif Require Import Base TextModel TextSpec TextProofs Crypto DocModel DocSpec DocSort DocProofs DocWalk PageSpec DocPage DocParts DocRes DocRes2 DocEnd DocXref DocLayout DocFile OutlineSpec DocOutline DocBack DocProps DocProps2
  ResSpec ResProofs ResProofs2 ResProofs3 ResProofs4 ResProofs5 CatSpec CatProofs CatProps ReadSpec ReadProofs ReadProps ReadInfoProps ReadOutline.
From Coq Require Import String Permutation.
Open Scope Z_scope.
Notation length := List.length.
Local Notation "a +++ b" := (List.app a b) (at level 60, right associativity, only parsing).

(** ** One bookmark *)
Section Item.
  Context {E : env}.
  Hypothesis fmt_free : forall x, no_delimiter (e_fmt2 E x).
  Lemma seek_ref_other K key n x r : hd 0 K = 47 -> scan K 2 0 false key = Some (2%nat, 0%nat, false) ->
    seek K 2 0 false (ref_line key n x +++ r) = seek K 2 0 false r.
  Proof using.
    clear. intros HK H. unfold ref_line. destruct (x =? -1); [reflexivity|]. rewrite <- ?app_assoc.
    rewrite (seek_lit _ _ _ _ _ H). rewrite seek_free by (apply no_delimiter_dec || exact HK).
    rewrite (app_assoc (bs " 0 R") nl). rewrite seek_free; [reflexivity| |exact HK]. 
    apply Forall_forall. intros c Hc Hd. cbn in Hc, Hd. repeat (destruct Hc as [<-|Hc]; [repeat (destruct Hd as [Hd|Hd]; [discriminate Hd|]); destruct Hd|]). destruct Hc.
  Qed.
  Lemma seek_ref_same K n x r : K <> [] -> seek K 2 0 false (ref_line K n x +++ r) = if x =? -1 then seek K 2 0 false r else Some (dec (n + x) +++ bs " 0 R" +++ nl +++ r).
  Proof using. clear. intros HK. unfold ref_line. destruct (x =? -1); [reflexivity|]. rewrite <- ?app_assoc. now rewrite seek_hit. Qed.

  Definition item_text (n : Z) (c : bytes) (x : onode) (p : Z) (y : e_num E) : bytes :=
    (bs "<</Title " +++ textstring c) +++ nl +++ outline_links n x +++
      (bs "/Dest [" +++ dec p +++ bs " 0 R /XYZ 0 " +++ e_fmt2 E y +++ bs " null]") +++ nl +++ bs "/Count 0>>" +++ nl.
  Lemma item_title n c x p y r : exists r', entry_of (bs "/Title ") (item_text n c x p y +++ r) = Some (textstring c +++ r').
  Proof using.
    clear. eexists. unfold item_text. change (bs "<</Title ") with (bs "<<" +++ bs "/Title "). rewrite <- ?app_assoc. rewrite entry_of_start. sk1. rewrite seek_hit by discriminate. reflexivity.
  Qed.
  Lemma item_tail K p y r : scan K 2 0 false (bs "/Dest [") = Some (3%nat, 0%nat, false) -> scan K 3 0 false (bs " 0 R /XYZ 0 ") = Some (3%nat, 0%nat, false) ->
    scan K 3 0 false (bs " null]" +++ nl +++ bs "/Count 0>") = Some (1%nat, 0%nat, false) -> hd 0 K = 47 ->
    seek K 2 0 false ((bs "/Dest [" +++ dec p +++ bs " 0 R /XYZ 0 " +++ e_fmt2 E y +++ bs " null]") +++ nl +++ bs "/Count 0>>" +++ nl +++ r) = None.
  Proof using fmt_free.
    intros H1 H2 H3 HK. rewrite <- ?app_assoc. rewrite (seek_lit _ _ _ _ _ H1). rewrite seek_free by (apply no_delimiter_dec || exact HK).
    rewrite (seek_lit _ _ _ _ _ H2). rewrite seek_free by (apply fmt_free || exact HK). change (bs "/Count 0>>") with (bs "/Count 0>" +++ [62]). rewrite <- ?app_assoc.
    rewrite (app_assoc nl), (app_assoc (bs " null]")). rewrite (seek_lit _ _ _ _ _ H3). reflexivity.
  Qed.
  Ltac head := unfold item_text, outline_links; rewrite <- ?app_assoc; rewrite entry_of_start;
    rewrite (seek_string2 _ _ (textstring _) _ _) by (try reflexivity; apply textstring_roundtrip).
  Lemma item_first n c x p y r : exists r', entry_of (bs "/First ") (item_text n c x p y +++ r) =
    if on_first x =? -1 then None else Some (dec (n + on_first x) +++ bs " 0 R" +++ r').
  Proof using fmt_free.
    eexists. unfold item_text, outline_links. change (bs "<</Title ") with (bs "<<" +++ bs "/Title "). rewrite <- ?app_assoc. rewrite entry_of_start.
    do 2 sk1. rewrite (seek_string2 _ _ (textstring c) _ c) by (try reflexivity; apply textstring_roundtrip). do 5 sk1.
    rewrite !seek_ref_other by reflexivity. rewrite seek_ref_same by discriminate. destruct (on_first x =? -1); [|reflexivity].
    rewrite seek_ref_other by reflexivity. rewrite <- (item_tail (bs "/First ") p y r) by reflexivity. rewrite <- ?app_assoc. reflexivity.
  Qed.
  Lemma item_next n c x p y r : exists r', entry_of (bs "/Next ") (item_text n c x p y +++ r) =
    if on_next x =? -1 then None else Some (dec (n + on_next x) +++ bs " 0 R" +++ r').
  Proof using fmt_free.
    eexists. unfold item_text, outline_links. change (bs "<</Title ") with (bs "<<" +++ bs "/Title "). rewrite <- ?app_assoc. rewrite entry_of_start.
    do 2 sk1. rewrite (seek_string2 _ _ (textstring c) _ c) by (try reflexivity; apply textstring_roundtrip). do 5 sk1.
    rewrite seek_ref_other by reflexivity. rewrite seek_ref_same by discriminate. destruct (on_next x =? -1); [|reflexivity].
    rewrite !seek_ref_other by reflexivity. rewrite <- (item_tail (bs "/Next ") p y r) by reflexivity. rewrite <- ?app_assoc. reflexivity.
  Qed.
End Item.

(** ** The catalog *)
Section Catalog.
  Local Notation K := (bs "/Outlines ").
  Lemma seek_line t r : scan K 2 0 false t = Some (2%nat, 0%nat, false) -> seek K 2 0 false (line t +++ r) = seek K 2 0 false r.
  Proof. intros H. unfold line. rewrite <- app_assoc. rewrite (seek_lit _ _ _ _ _ H). reflexivity. Qed.
  Lemma seek_view zoom r : seek K 2 0 false (view_line zoom +++ r) = seek K 2 0 false r.
  Proof. unfold view_line. repeat (match goal with |- context [if ?c then _ else _] => destruct c end; [apply seek_line; reflexivity|]). reflexivity. Qed.
  Lemma seek_layout layout r : seek K 2 0 false (layout_line layout +++ r) = seek K 2 0 false r.
  Proof.
    unfold layout_line. destruct (find _ layouts) as [e|] eqn:F; [|reflexivity]. apply find_some in F as [F _]. unfold layouts in F. cbn [In] in F.
    repeat (destruct F as [<-|F]; [apply seek_line; reflexivity|]). destruct F.
  Qed.
  Lemma no_delim_refs l : no_delimiter (List.concat (map (fun p : Z * bool => ref (fst p) +++ bs " ") l)).
  Proof.
    induction l as [|p l IH]; [constructor|]. cbn [map List.concat]. apply no_delimiter_app; [|exact IH]. unfold ref. repeat apply no_delimiter_app; [apply no_delimiter_dec| |].
    - apply Forall_forall. intros c Hc Hd. cbn in Hc, Hd. repeat (destruct Hc as [<-|Hc]; [repeat (destruct Hd as [Hd|Hd]; [discriminate Hd|]); destruct Hd|]). destruct Hc.
    - apply Forall_forall. intros c Hc Hd. cbn in Hc, Hd. repeat (destruct Hc as [<-|Hc]; [repeat (destruct Hd as [Hd|Hd]; [discriminate Hd|]); destruct Hd|]). destruct Hc.
  Qed.
  Lemma seek_layers layers pane r : seek K 2 0 false (layer_lines layers pane +++ r) = seek K 2 0 false r.
  Proof.
    unfold layer_lines. destruct layers as [|l0 ls]; [reflexivity|]. set (l := l0 :: ls). cbv zeta. unfold line at 1. rewrite <- ?app_assoc.
    pose proof (no_delim_refs l) as N1. pose proof (no_delim_refs (filter (fun p => negb (snd p)) l)) as N2.
    set (a := List.concat (map _ l)) in *. set (h := List.concat (map _ (filter _ l))) in *. clearbody a h. clear l.
    do 8 sk1. destruct pane; [apply seek_line; reflexivity|reflexivity].
  Qed.
  Lemma seek_digits n m k r : seek K n (S m) false (dec k +++ r) = seek K n (S m) false r.
  Proof.
    assert (D : Forall (fun c => is_digit c = true \/ c = 45) (dec k)).
    { unfold dec. assert (X : Forall (fun c => is_digit c = true \/ c = 45) (dec_nat (Z.abs k))) by (eapply Forall_impl; [|apply DocWalk.dec_nat_digits]; cbn; tauto).
      destruct (k <? 0) eqn:Ek; [|now replace k with (Z.abs k) at 1 by lia]. constructor; [now right|]. now replace (- k) with (Z.abs k) by lia. }
    induction D as [|c s H D IH]; [reflexivity|]. rewrite <- app_comm_cons. unfold is_digit in H. rewrite seek_plain_char by lia. exact IH.
  Qed.
  Lemma seek_files i files r : seek K 7 0 false (file_names i files +++ r) = seek K 7 0 false r.
  Proof.
    revert i. induction files as [|k t IH]; intros i; [reflexivity|].
    assert (G : forall r, seek K 7 0 false (bs "(Attachement" +++ dec i +++ bs ") " +++ ref k +++ bs " " +++ r) = seek K 7 0 false r).
    { intros r'. unfold ref. rewrite <- ?app_assoc. rewrite (seek_scan K (bs "(Attachement") 7 0 false 7 1 false) by reflexivity. rewrite seek_digits.
      rewrite (seek_scan K (bs ") ") 7 1 false 7 0 false) by reflexivity. do 3 sk1. reflexivity. }
    cbn [file_names]. destruct t as [|k2 t].
    - rewrite <- ?app_assoc. apply G.
    - rewrite <- ?app_assoc. rewrite G. do 1 sk1. apply IH.
  Qed.
  Lemma catalog_scan zoom layout outlines layers pane js files r :
    match outlines with
    | Some k => exists r', entry_of K (catalog_text zoom layout outlines layers pane js files +++ r) = Some (dec k +++ bs " 0 R" +++ r')
    | None => entry_of K (catalog_text zoom layout outlines layers pane js files +++ r) = None
    end.
  Proof.
    assert (G : forall s, entry_of K ((line (bs "<<") +++ line (bs "/Type /Catalog") +++ line (bs "/Pages 1 0 R") +++ view_line zoom +++ layout_line layout +++ s)) = seek K 2 0 false s).
    { intros s. unfold line at 1. rewrite <- ?app_assoc. rewrite entry_of_start. do 2 sk1. rewrite !seek_line by reflexivity. rewrite seek_view, seek_layout. reflexivity. }
    unfold catalog_text. destruct outlines as [k|].
    - eexists. rewrite <- ?app_assoc. rewrite G. unfold line at 1. rewrite <- ?app_assoc. rewrite seek_hit by discriminate. unfold ref. rewrite <- ?app_assoc. reflexivity.
    - rewrite <- ?app_assoc. rewrite G. cbn [app]. rewrite seek_layers. unfold line at 1. rewrite <- ?app_assoc. do 2 sk1.
      assert (J : forall q, seek K 4 0 false (match js with Some k => line (bs "/JavaScript " +++ ref k) | None => [] end +++ q) = seek K 4 0 false q).
      { intros q. destruct js as [k|]; [|reflexivity]. unfold line, ref. rewrite <- ?app_assoc. now sk. }
      rewrite J. unfold line. rewrite <- ?app_assoc. do 3 sk1. rewrite seek_files. do 4 sk1. reflexivity.
  Qed.
End Catalog.

(** The bookmarks, in the order in which they were added, each with its level and its text.  The levels are those of a tree (C17 says
    what happens otherwise), and the numbers are printed without delimiters. *)
Theorem C92_bookmarks_read_back_partial :
  forall (E : env) (d : doc (e_num E)) (pre : bytes),
    well_formed d -> finished d pre -> zlength (file_of d pre) < 10 ^ 10 ->
    well_nested (levels (d_outlines d)) ->
    (forall x, no_delimiter (e_fmt2 E x)) ->
    let unlock := std_crypt (e_md5 E) (option_map pr_key (d_protect d)) in
    read_outlines unlock (file_of d pre) = Some (map (fun o => (ou_level o, ou_text o)) (d_outlines d)).
Proof.
  intros E d pre W F S WN HF unlock. destruct (enddoc_assembled d pre (well_formed_inputs d W) F) as (os & ps & oa & A).
  destruct (tables d _ _ _ _ _ A S) as (x & offs & enc & rest & Sx & _ & Hlo & R & Er & _ & Ex & Hoff & _).
  fold (file_of d pre) in *. set (table := Free 0 65535 :: map (fun o => InUse o 0) offs) in *.
  assert (OB : forall k body, In (obj k body) os -> 1 <= k <= w_n (enddoc d (w_init pre)) /\ exists r, object_from (file_of d pre) table k = Some (body +++ bs "endobj" +++ eol +++ r)).
  { intros k body Hin. unfold obj in Hin. destruct (Hoff _ _ Hin) as (off & Hn & Hf).
    assert (Hk : 1 <= k <= w_n (enddoc d (w_init pre))) by (eapply (num_range d); [exact A|]; apply (in_map fst) in Hin; exact Hin). split; [exact Hk|].
    eapply (object_from_found _ _ _ off); [|exact Hf]. replace (Z.to_nat k) with (Datatypes.S (Z.to_nat (k - 1))) by lia. exact (map_nth_error (fun o => InUse o 0) _ _ Hn). }
  destruct (as_end _ _ _ _ _ _ A) as (w2 & o1 & w6 & ti & tc & n & C2 & N1 & N2 & H2 & Hl & Hc & Hok & Ha & Hi & Ai & Ii & Ac & Ic & C6 & OW & OS & JS & Q).
  pose proof (as_n _ _ _ _ _ _ A) as Hn.
  set (w7 := put_info_obj d w6) in *. set (fin := w_n (enddoc d (w_init pre))) in *.
  assert (Nc : w_n w7 + 1 = fin). { pose proof (ad_nums _ _ _ Ac) as X. cbn [map length nums fst obj] in X. congruence. }
  rewrite <- Nc in Ac. pose proof (put_catalog_obj_text d w7 tc Ac) as ->. clear Ac.
  unfold read_outlines. rewrite (table_offset_of _ x Sx) by (rewrite Ex; apply zlen_nonneg). cbn [bind]. rewrite R. cbn [bind fst snd].
  rewrite Er. change nl with eol. rewrite (app_assoc (bs "trailer") eol), strip_app. cbn [bind].
  unfold trailer_text. change nl with eol. rewrite entry_of_start. rewrite <- ?app_assoc.
  assert (Hlt : length table = Datatypes.S (Z.to_nat fin)) by (unfold table; cbn [length]; rewrite map_length; unfold zlen in Hlo; lia).
  clearbody table. clearbody fin.
  do 5 sk1. rewrite seek_hit by discriminate. cbn [bind]. rewrite reference_dec by lia. cbn [bind fst].
  destruct (OB _ _ Ic) as (_ & r1 & ->). cbn [bind].
  match goal with |- context [catalog_text ?a ?b ?c ?e ?f ?g ?h +++ ?r] => pose proof (catalog_scan a b c e f g h r) as CS end.
  unfold cat_outlines in CS at 1. destruct (d_outlines d) as [|o0 ol0] eqn:Eo.
  { rewrite CS. reflexivity. }
  destruct CS as (r2 & ->). cbn [bind]. rewrite <- Eo in *.
  assert (Hne : d_outlines d <> []) by (rewrite Eo; discriminate). clear Eo o0 ol0.
  replace (num_of (w_tab w7) SOutl) with (n + zlen (d_outlines d)) by (symmetry; exact (OS Hne)).
  destruct (OW Hne) as [O1 O2]. set (ls := levels (d_outlines d)) in *.
  destruct (outlines_linked ls WN) as (ns & lru & El & Hlen & Hnode & Hr).
  fold (levels (d_outlines d)) in O1, O2. fold ls in O1, O2. rewrite El in O1, O2. cbn [fst snd] in O1, O2.
  assert (Hz : zlen (d_outlines d) = count_items ls) by (unfold count_items, ls, levels, zlen; now rewrite map_length).
  destruct (OB _ _ O2) as (Hroot & r3 & Or).
  rewrite reference_dec by lia. cbn [bind fst]. rewrite Or. cbn [bind]. unfold outline_root. change nl with eol.
  change (bs "<</Type /Outlines /First ") with (bs "<<" +++ bs "/Type /Outlines " +++ bs "/First "). rewrite <- ?app_assoc. rewrite entry_of_start. do 2 sk1. rewrite seek_hit by discriminate. cbn [bind].
  assert (Hnode' : forall i p, nth_error (map (fun o => (ou_level o, ou_text o)) (d_outlines d)) i = Some p -> exists o nd (y : e_num E) r,
    nth_error (d_outlines d) i = Some o /\ p = (ou_level o, ou_text o) /\ nth_error ns i = Some nd /\ 1 <= n + Z.of_nat i /\
    object_from (file_of d pre) table (n + Z.of_nat i) = Some (item_text (E := E) n (cipher d (n + Z.of_nat i) (ou_text o)) nd (1 + 2 * ou_page o) y +++ bs "endobj" +++ eol +++ r)).
  { intros i p Hp. destruct (nth_error (d_outlines d) i) as [o|] eqn:Hio; [|apply nth_error_None in Hio; assert (i < length (d_outlines d))%nat by (rewrite <- (map_length (fun o => (ou_level o, ou_text o))); apply nth_error_Some; congruence); lia].
    rewrite (map_nth_error _ _ _ Hio) in Hp. injection Hp as <-.
    assert (Hx : exists nd, nth_error ns i = Some nd).
    { destruct (nth_error ns i) eqn:Exn; [eauto|]. apply nth_error_None in Exn. rewrite Hlen in Exn. unfold ls, levels in Exn. rewrite map_length in Exn.
      assert (i < length (d_outlines d))%nat by (apply nth_error_Some; congruence). lia. }
    destruct Hx as (nd & Hnd). destruct (O1 i o nd Hio Hnd) as (body & Hb & (t & y & Eb & Ht)). destruct (OB _ _ Hb) as (Hk & r & Ho).
    exists o, nd, y, r. split; [reflexivity|]. split; [reflexivity|]. split; [exact Hnd|]. split; [lia|]. rewrite Ho, Eb. do 2 f_equal. cbn [fst snd].
    pose (w := {| w_buf := []; w_n := n + Z.of_nat i; w_offs := []; w_tab := []; w_cip := None; w_err := false; w_panic := false |}).
    rewrite (Ht w); [|intros m st X; discriminate X|reflexivity]. cbn [fst]. rewrite (textstr_fresh d _ w) by (intros m st X; discriminate X).
    reflexivity. }
  assert (H0 : exists p, nth_error (map (fun o => (ou_level o, ou_text o)) (d_outlines d)) 0 = Some p) by (destruct (d_outlines d); [contradiction|eexists; reflexivity]).
  destruct H0 as (p0 & H0). destruct (Hnode' _ _ H0) as (_ & _ & _ & _ & _ & _ & _ & Hn1 & _). change (Z.of_nat 0) with 0 in Hn1. rewrite Z.add_0_r in Hn1.
  rewrite reference_dec by lia. cbn [bind fst].
  assert (Lv : map fst (map (fun o => (ou_level o, ou_text o)) (d_outlines d)) = ls) by (unfold ls, levels; rewrite map_map; reflexivity).
  apply (walk_all ls WN (map (fun o => (ou_level o, ou_text o)) (d_outlines d)) (fun fuel depth k => read_items unlock fuel (file_of d pre) table depth k) n Lv).
  - intros i p fuel Hp. destruct (Hnode' i p Hp) as (o & nd & y & r & Hio & -> & Hnd & Hk & Ho).
    assert (Hat : at_ ns (Z.of_nat i) = Some nd). { unfold at_. replace (Z.of_nat i <? 0) with false by lia. now rewrite Nat2Z.id. }
    destruct (Hnode _ _ Hat) as (_ & _ & _ & P3 & P4 & _).
    exists (on_next nd), (on_first nd). split; [exact P3|]. split; [exact P4|].
    assert (Bn : on_next nd <> -1 -> 0 <= on_next nd). { destruct P3 as [[-> _]|(Lt & _)]; lia. }
    assert (Bf : on_first nd <> -1 -> 0 <= on_first nd). { destruct P4 as [[-> _]|[((Ii2 & _) & _) _]]; [lia|unfold item in Ii2; lia]. }
    cbn [read_items]. rewrite Ho. cbn [bind fst].
    destruct (item_title n (cipher d (n + Z.of_nat i) (ou_text o)) nd (1 + 2 * ou_page o) y (bs "endobj" +++ eol +++ r)) as (r4 & ->). cbn [bind].
    rewrite textstring_roundtrip. cbn [bind fst].
    assert (Eu : unlock (n + Z.of_nat i) (cipher d (n + Z.of_nat i) (ou_text o)) = ou_text o).
    { unfold unlock. transitivity (std_crypt (e_md5 E) (option_map pr_key (d_protect d)) (n + Z.of_nat i) (std_crypt (e_md5 E) (option_map pr_key (d_protect d)) (n + Z.of_nat i) (ou_text o))); [|apply std_crypt_invol].
      f_equal. unfold cipher, std_crypt. now destruct (d_protect d). }
    rewrite Eu.
    destruct (item_first HF n (cipher d (n + Z.of_nat i) (ou_text o)) nd (1 + 2 * ou_page o) y (bs "endobj" +++ eol +++ r)) as (r5 & ->).
    destruct (item_next HF n (cipher d (n + Z.of_nat i) (ou_text o)) nd (1 + 2 * ou_page o) y (bs "endobj" +++ eol +++ r)) as (r6 & ->).
    destruct (on_first nd =? -1) eqn:E1; destruct (on_next nd =? -1) eqn:E2; rewrite ?reference_dec by lia; cbn [bind fst]; reflexivity.
  - intros X. apply map_eq_nil in X. contradiction.
  - rewrite Hlt. rewrite Hz in Hroot. unfold count_items in *. lia.
Qed.
Print Assumptions C92_bookmarks_read_back_partial.

(** A1 and A11 are below A, B1 is below B; the titles hold delimiters and the names of entries *)
Definition marks92 : list (outline Z) := [mark0 (bs "A /Next 1 0 R") 0; mark0 (bs "A1)") 1; mark0 (bs "(A11>>") 2; mark0 (bs "A2\") 1; mark0 (bs "B") 0; mark0 (bs "B1") 1].
Definition doc92 (prot : option protect) : doc Z := doc0 [page0 (bs "first") []] 1 [] [] [] marks92 prot.
Definition prot92 : protect := {| pr_o := bs "o"; pr_u := bs "u"; pr_p := -4; pr_key := [1; 2; 3; 4; 5] |}.
Lemma well_nested_dec ls : (forallb (fun i => let a := lv ls (Z.of_nat i) in let b := lv ls (Z.of_nat i + 1) in (0 <=? b) && (b <=? a + 1)) (seq 0 (Nat.pred (length ls))) && (lv ls 0 =? 0)) = true -> well_nested ls.
Proof.
  intros H. apply andb_prop in H as [H1 H2]. split; [intros _; lia|]. rewrite forallb_forall in H1. unfold item, count_items. intros i Hi Hj.
  specialize (H1 (Z.to_nat i)). rewrite Z2Nat.id in H1 by lia. cbn zeta in H1. specialize (H1 ltac:(apply in_seq; lia)). lia.
Qed.
Example C92_ex : finished (E := env0) (doc92 (Some prot92)) [] /\ well_nested (levels marks92) /\
  read_outlines (fun _ s => s) (file_of (E := env0) (doc92 None) []) =
  Some [(0, bs "A /Next 1 0 R"); (1, bs "A1)"); (2, bs "(A11>>"); (1, bs "A2\"); (0, bs "B"); (1, bs "B1")].
Proof. split; [split; vm_compute; reflexivity|]. split; [apply well_nested_dec; vm_compute; reflexivity|vm_compute; reflexivity]. Qed.
Example C92_ex_thm :
  read_outlines (std_crypt (e_md5 env0) (Some (pr_key prot92))) (file_of (E := env0) (doc92 (Some prot92)) []) = Some (map (fun o => (ou_level o, ou_text o)) marks92).
Proof.
  assert (W : well_formed (E := env0) (doc92 (Some prot92))). { constructor; try (intros; contradiction); [reflexivity|apply env0_fmt]. }
  apply (C92_bookmarks_read_back_partial env0 (doc92 (Some prot92)) [] W).
  - exact (proj1 C92_ex).
  - vm_compute. reflexivity.
  - exact (proj1 (proj2 C92_ex)).
  - exact env0_free.
Qed.

(** When a level is skipped, bookmarks are lost: of the four, the second and the last are reached from none of the others *)
Theorem C92_bookmarks_refuted :
  let marks := [mark0 (bs "A") 0; mark0 (bs "B") 1; mark0 (bs "C") 3; mark0 (bs "D") 1] in
  let d := doc0 [page0 (bs "first") []] 1 [] [] [] marks None in
  finished (E := env0) d [] /\ read_outlines (fun _ s => s) (file_of (E := env0) d []) = Some [(0, bs "A"); (1, bs "C")].
Proof. split; [split; vm_compute; reflexivity|vm_compute; reflexivity]. Qed.
Print Assumptions C92_bookmarks_refuted.
(** and when the first bookmark is not at level 0, none can be read *)
Theorem C92_first_level_refuted :
  let d := doc0 [page0 (bs "first") []] 1 [] [] [] [mark0 (bs "A") 1; mark0 (bs "B") 0] None in
  finished (E := env0) d [] /\ read_outlines (fun _ s => s) (file_of (E := env0) d []) = None.
Proof. split; [split; vm_compute; reflexivity|vm_compute; reflexivity]. Qed.
Print Assumptions C92_first_level_refuted.
