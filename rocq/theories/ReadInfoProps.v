(** C91: the reader gets the metadata back. *)
From Verif Require Import Base TextModel TextSpec TextProofs Crypto DocModel DocSpec DocSort DocProofs DocWalk PageSpec DocPage DocParts DocRes DocRes2 DocEnd DocXref DocLayout DocFile OutlineSpec DocOutline DocBack DocProps
  ResSpec ResProofs ResProofs2 ResProofs3 ResProofs4 ResProofs5 CatSpec CatProofs CatProps ReadSpec ReadProofs.
From Coq Require Import String Permutation.
Open Scope Z_scope.
Notation length := List.length.
Local Notation "a +++ b" := (List.app a b) (at level 60, right associativity, only parsing).

Definition info_names : list bytes :=
  [bs "Producer"; bs "Title"; bs "Subject"; bs "Author"; bs "Keywords"; bs "Creator"; bs "CreationDate"; bs "ModDate"]%string.

Lemma seek_string2 key nest t r c : hd 0 key = 47 -> read_string (t +++ r) = Some (c, r) -> seek key nest 0 false (t +++ r) = seek key nest 0 false r.
Proof.
  intros Hk H. unfold read_string in H. destruct (t +++ r) as [|b s]; [discriminate H|]. destruct (b =? 40) eqn:E; [|discriminate H].
  cbn [seek]. replace (prefixb key (b :: s)) with false.
  2:{ symmetry. destruct key as [|k key]; [discriminate Hk|]. cbn in Hk. subst k. cbn [prefixb]. apply Z.eqb_eq in E. subst b. reflexivity. }
  rewrite andb_false_r, E. eapply seek_literal; [apply Nat.le_refl|exact H].
Qed.

(** an entry with another name is passed over *)
Lemma other_names : forall n n', In n info_names -> In n' info_names -> n <> n' ->
  scan (bs "/" +++ n +++ bs " ") 2 0 false (bs "/" +++ n' +++ bs " ") = Some (2%nat, 0%nat, false).
Proof.
  assert (G : forallb (fun n => forallb (fun n' => beqb n n' || match scan (bs "/" +++ n +++ bs " ") 2 0 false (bs "/" +++ n' +++ bs " ") with Some (2%nat, 0%nat, false) => true | _ => false end) info_names) info_names = true) by (vm_compute; reflexivity).
  intros n n' H H' Hne. rewrite forallb_forall in G. specialize (G n H). rewrite forallb_forall in G. specialize (G n' H').
  apply orb_prop in G as [G|G]; [apply beqb_eq in G; contradiction|].
  destruct (scan _ _ _ _ _) as [[[[|[|[|?]]] [|?]] [|]]|]; try discriminate G. reflexivity.
Qed.
Definition info_line (e : bytes * bytes) : bytes := line (bs "/" +++ fst e +++ bs " (" +++ escape (snd e) +++ bs ")").
Lemma info_line_text e : info_line e = (bs "/" +++ fst e +++ bs " ") +++ textstring (snd e) +++ eol.
Proof. unfold info_line, CatSpec.line, textstring. rewrite <- ?app_assoc. change (bs " (") with (bs " " +++ [40]). rewrite <- ?app_assoc.
  change (40 :: escape (snd e) +++ [41]) with ([40] +++ escape (snd e) +++ [41]). rewrite <- ?app_assoc. reflexivity. Qed.

(** the first entry of that name *)
Fixpoint assoc (name : bytes) (l : list (bytes * bytes)) : option bytes :=
  match l with [] => None | (n, v) :: l => if beqb n name then Some v else assoc name l end.
Lemma seek_entries name l r : In name info_names -> (forall e, In e l -> In (fst e) info_names) ->
  let K := bs "/" +++ name +++ bs " " in
  match assoc name l with
  | Some v => exists r', seek K 2 0 false (List.concat (map info_line l) +++ r) = Some (textstring v +++ r')
  | None => seek K 2 0 false (List.concat (map info_line l) +++ r) = seek K 2 0 false r
  end.
Proof.
  intros Hn Hl K. induction l as [|[n v] l IH]; [reflexivity|]. cbn [assoc map List.concat]. rewrite info_line_text. cbn [fst snd]. rewrite <- ?app_assoc.
  destruct (beqb n name) eqn:E.
  - apply beqb_eq in E. subst n. eexists. rewrite (app_assoc (bs "/") name), (app_assoc (bs "/" +++ name)). unfold K. rewrite (app_assoc (bs "/") name (bs " ")). rewrite seek_hit by discriminate. reflexivity.
  - assert (Hne : name <> n) by (intros ->; rewrite beqb_refl in E; discriminate).
    assert (Hi : In n info_names) by (apply (Hl (n, v)); now left).
    assert (St : seek K 2 0 false (bs "/" +++ n +++ bs " " +++ textstring v +++ eol +++ List.concat (map info_line l) +++ r) = seek K 2 0 false (List.concat (map info_line l) +++ r)).
    { rewrite (app_assoc (bs "/") n), (app_assoc (bs "/" +++ n) (bs " ")). rewrite <- (app_assoc (bs "/") n (bs " ")).
      rewrite (seek_lit _ _ _ 2%nat) by (apply other_names; assumption).
      rewrite (seek_string2 _ _ (textstring v) _ v) by (try reflexivity; apply textstring_roundtrip). reflexivity. }
    rewrite St. apply IH. intros e He. apply Hl. now right.
Qed.

(** The document is not protected: what a protected document stores for the dates is not what was set, see C33. *)
Theorem C91_metadata_read_back_partial :
  forall (E : env) (d : doc (e_num E)) (pre : bytes),
    well_formed d -> finished d pre -> zlength (file_of d pre) < 10 ^ 10 -> d_protect d = None ->
    (forall name value,
       In (name, value) [(bs "Producer", d_producer d); (bs "Title", d_title d); (bs "Subject", d_subject d);
                         (bs "Author", d_author d); (bs "Keywords", d_keywords d); (bs "Creator", d_creator d)] ->
       read_info (file_of d pre) name = Some (match value with [] => None | _ => Some value end)) /\
    read_info (file_of d pre) (bs "CreationDate") = Some (Some (d_created d)) /\
    read_info (file_of d pre) (bs "ModDate") = Some (Some (d_modified d)).
Proof.
  intros E d pre W F S NP. destruct (enddoc_assembled d pre (well_formed_inputs d W) F) as (os & ps & oa & A).
  destruct (tables d _ _ _ _ _ A S) as (x & offs & enc & rest & Sx & _ & Hl & R & Er & _ & Ex & Hoff & _).
  fold (file_of d pre) in *. set (table := Free 0 65535 :: map (fun o => InUse o 0) offs) in *.
  destruct (as_end _ _ _ _ _ _ A) as (w2 & o1 & w6 & ti & tc & nn & C2 & N1 & N2 & H2 & Hl2 & Hc & Hok & Ha & Hi & Ai & Ii & Ac & Ic & C6 & OW & OS & JS & Q).
  pose proof (as_n _ _ _ _ _ _ A) as Hn.
  set (n := w_n (enddoc d (w_init pre))) in *.
  assert (Ni : w_n w6 + 1 = n - 1). { pose proof (ad_nums _ _ _ Ai) as X. cbn [map length nums fst obj] in X. congruence. }
  rewrite <- Ni in Ai. destruct (put_info_obj_text d w6 ti Ai) as (m & Sm & ->).
  assert (Em : m = info_entries d).
  { clear - Sm NP. unfold stored_as in Sm. induction Sm as [|e f l m (H1 & _ & H3) Sm IH]; [reflexivity|].
    rewrite IH. destruct e, f. cbn [fst snd] in *. rewrite (H3 NP), H1. reflexivity. }
  subst m. clear Sm.
  assert (X : exists r, object_from (file_of d pre) table (n - 1) = Some (info_text (info_entries d) +++ bs "endobj" +++ eol +++ r)).
  { unfold obj in Ii. destruct (Hoff _ _ Ii) as (off & Hno & Hf).
    eapply (object_from_found _ _ _ off); [|exact Hf]. replace (Z.to_nat (n - 1)) with (Datatypes.S (Z.to_nat (n - 1 - 1))) by lia. exact (map_nth_error (fun o => InUse o 0) _ _ Hno). }
  destruct X as (r & Or).
  assert (RD : forall name, In name info_names -> read_info (file_of d pre) name = Some (assoc name (info_entries d))).
  { intros name Hin. unfold read_info. rewrite (table_offset_of _ x Sx) by (rewrite Ex; apply zlen_nonneg). cbn [bind]. rewrite R. cbn [bind fst snd].
    rewrite Er. change nl with eol. rewrite (app_assoc (bs "trailer") eol), strip_app. cbn [bind].
    unfold trailer_text. change nl with eol. rewrite entry_of_start. rewrite <- ?app_assoc.
    clearbody n. do 9 sk1. rewrite seek_hit by discriminate. cbn [bind]. rewrite reference_dec by lia. cbn [bind fst]. rewrite Or. cbn [bind].
    unfold info_text, CatSpec.line.
    rewrite <- ?app_assoc. rewrite entry_of_start. rewrite (app_assoc (bs "<<") eol), (seek_lit _ (bs "<<" +++ eol) 0 2) by reflexivity.
    pose proof (seek_entries name (info_entries d) (bs ">>" +++ eol +++ bs "endobj" +++ eol +++ r) Hin) as SE. cbn zeta in SE. unfold info_line, CatSpec.line in SE.
    assert (Hall : forall e, In e (info_entries d) -> In (fst e) info_names).
    { intros e He. unfold info_entries in He. apply in_app_or in He as [He|He].
      - apply filter_In in He as [He _]. unfold info_names. cbn [In] in He |- *. repeat (destruct He as [<-|He]; [cbn [fst]; tauto|]). destruct He.
      - unfold info_names. cbn [In] in He |- *. repeat (destruct He as [<-|He]; [cbn [fst]; tauto|]). destruct He. }
    specialize (SE Hall). destruct (assoc name (info_entries d)) as [v|].
    - destruct SE as (r' & SE). match goal with |- match ?s with Some _ => _ | None => _ end = _ => assert (ES : s = Some (textstring v +++ r')) by exact SE; rewrite ES end. rewrite textstring_roundtrip. reflexivity.
    - match goal with |- match ?s with Some _ => _ | None => _ end = _ => assert (ES : s = None) by exact SE; rewrite ES end. reflexivity. }
  split; [|split].
  - intros name value Hin. rewrite RD.
    2:{ unfold info_names. cbn [In] in Hin |- *. repeat (destruct Hin as [Hin|Hin]; [injection Hin as <- <-; tauto|]). destruct Hin. }
    f_equal. unfold info_entries. clear - Hin. destruct (d_producer d), (d_title d), (d_subject d), (d_author d), (d_keywords d), (d_creator d);
    cbn [In] in Hin; repeat (destruct Hin as [Hin|Hin]; [injection Hin as <- <-; reflexivity|]); destruct Hin.
  - rewrite RD by (unfold info_names; cbn [In]; tauto). f_equal. unfold info_entries. destruct (d_producer d), (d_title d), (d_subject d), (d_author d), (d_keywords d), (d_creator d); reflexivity.
  - rewrite RD by (unfold info_names; cbn [In]; tauto). f_equal. unfold info_entries. destruct (d_producer d), (d_title d), (d_subject d), (d_author d), (d_keywords d), (d_creator d); reflexivity.
Qed.
Print Assumptions C91_metadata_read_back_partial.

(** delimiters, parentheses and the names of other entries inside the values *)
Definition doc91 (prot : option protect) : doc Z :=
  let d := doc0 [page0 (bs "first") []] 1 [] [] [] [] prot in
  {| d_pages := d_pages d; d_page := d_page d; d_k := d_k d; d_h := d_h d; d_defw := d_defw d; d_defh := d_defh d; d_links := d_links d;
     d_alias := []; d_aliasnb := []; d_atts := []; d_docatts := []; d_version := d_version d; d_blendmap := false;
     d_compress := false; d_sort := true; d_gsort := true; d_protect := prot; d_layers := []; d_pane := false;
     d_blends := []; d_grads := []; d_spots := []; d_diffs := []; d_files := []; d_fonts := []; d_images := []; d_tpls := [];
     d_impobjs := []; d_imptpls := []; d_js := None; d_xmp := []; d_outlines := [];
     d_producer := bs "p"; d_title := bs ") /Author (nobody"; d_subject := bs "a\"; d_author := bs "((A>>"; d_keywords := []; d_creator := [13; 10];
     d_created := bs "D:2000"; d_modified := bs "D:2001"; d_zoom := bs "fullpage"; d_layout := []; d_pagesizes := fun _ => None |}.
Example C91_ex :
  finished (E := env0) (doc91 None) [] /\
  map (read_info (file_of (E := env0) (doc91 None) [])) [bs "Title"; bs "Subject"; bs "Author"; bs "Keywords"; bs "Creator"; bs "ModDate"]%string =
  [Some (Some (bs ") /Author (nobody")); Some (Some (bs "a\")); Some (Some (bs "((A>>")); Some None; Some (Some [13; 10]); Some (Some (bs "D:2001"))].
Proof. split; [split; vm_compute; reflexivity|vm_compute; reflexivity]. Qed.
Example C91_ex_thm : read_info (file_of (E := env0) (doc91 None) []) (bs "Author") = Some (Some (bs "((A>>")).
Proof.
  assert (W : well_formed (E := env0) (doc91 None)). { constructor; try (intros; contradiction); [reflexivity|apply env0_fmt]. }
  destruct (C91_metadata_read_back_partial env0 (doc91 None) [] W) as (H & _); [exact (proj1 C91_ex)|vm_compute; reflexivity|reflexivity|].
  apply (H (bs "Author") (bs "((A>>")). cbn [In]. tauto.
Qed.

(** in a protected document the dates are not what the encryption of any object makes of what was set *)
Theorem C91_metadata_refuted :
  let prot := {| pr_o := bs "o"; pr_u := bs "u"; pr_p := -4; pr_key := [1; 2; 3; 4; 5] |} in
  let file := file_of (E := env0) (doc91 (Some prot)) [] in
  finished (E := env0) (doc91 (Some prot)) [] /\
  exists v, read_info file (bs "CreationDate") = Some (Some v) /\
    Forall (fun k => std_crypt md5_sum (Some (pr_key prot)) k v <> d_created (doc91 (Some prot))) [1; 2; 3; 4; 5; 6; 7; 8; 9; 10].
Proof.
  cbv zeta. split; [split; vm_compute; reflexivity|].
  eexists. split; [vm_compute; reflexivity|]. repeat (constructor; [intros X; vm_compute in X; discriminate X|]). constructor.
Qed.
Print Assumptions C91_metadata_refuted.
