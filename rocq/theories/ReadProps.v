(** C90: a reader that knows nothing but the bytes of the file gets the pages back. *)
From Verif Require Import Base TextModel TextSpec TextProofs Crypto DocModel DocSpec DocSort DocProofs DocWalk PageSpec DocPage DocParts DocRes DocRes2 DocEnd DocXref DocLayout DocFile OutlineSpec DocOutline DocBack DocProps
  ReadSpec ReadProofs.
From Coq Require Import String Permutation.
Open Scope Z_scope.
Notation length := List.length.
Local Notation "a +++ b" := (List.app a b) (at level 60, right associativity, only parsing).

Lemma all_nth {A B} (f : A -> option B) l : forall r, length r = length l ->
  (forall i x y, nth_error l i = Some x -> nth_error r i = Some y -> f x = Some y) -> all f l = Some r.
Proof.
  induction l as [|x l IH]; intros [|y r] Hl H; try discriminate; [reflexivity|]. cbn [all].
  rewrite (H 0%nat x y eq_refl eq_refl). rewrite (IH r); [reflexivity|now injection Hl|]. intros i a b Ha Hb. exact (H (S i) a b Ha Hb).
Qed.

(** The reader decompresses with any [inflate] that undoes the compression, and undoes the encryption with the key of the document.
    The numbers are printed without delimiters, and the boxes have the names of page boxes. *)
Theorem C90_pages_read_back :
  forall (E : env) (d : doc (e_num E)) (pre : bytes) (inflate : bytes -> option bytes),
    well_formed d -> finished d pre -> zlength (file_of d pre) < 10 ^ 10 -> 0 <= d_page d ->
    (forall x, inflate (e_zlib E x) = Some x) ->
    (forall x, no_delimiter (e_fmt2 E x)) ->
    (forall pg b, In pg (d_pages d) -> In b (pg_boxes pg) -> In (fst b) box_names) ->
    let unlock := std_crypt (e_md5 E) (option_map pr_key (d_protect d)) in
    read_pages inflate unlock (file_of d pre) =
      Some (map (fun pg => replace_aliases d (pg_content pg)) (firstn (Z.to_nat (d_page d)) (d_pages d))).
Proof.
  intros E d pre inflate W F S Hp HI HF HB unlock. destruct (enddoc_assembled d pre (well_formed_inputs d W) F) as (os & ps & oa & A).
  destruct (tables d _ _ _ _ _ A S) as (x & offs & enc & rest & Sx & _ & Hl & R & Er & _ & Ex & Hoff & _).
  fold (file_of d pre) in *. set (table := Free 0 65535 :: map (fun o => InUse o 0) offs) in *.
  assert (OB : forall k body, In (obj k body) os -> exists r, object_from (file_of d pre) table k = Some (body +++ bs "endobj" +++ eol +++ r)).
  { intros k body Hin. unfold obj in Hin. destruct (Hoff _ _ Hin) as (off & Hn & Hf).
    assert (Hk : 1 <= k <= w_n (enddoc d (w_init pre))) by (eapply (num_range d); [exact A|]; apply (in_map fst) in Hin; exact Hin).
    eapply (object_from_found _ _ _ off); [|exact Hf]. replace (Z.to_nat k) with (Datatypes.S (Z.to_nat (k - 1))) by lia. exact (map_nth_error (fun o => InUse o 0) _ _ Hn). }
  destruct (as_pages _ _ _ _ _ _ A) as ((tab & PA) & Hp1). destruct (as_dpage _ _ _ _ _ _ A) as [Hle _].
  assert (Hlen : length (doc_pages d) = Z.to_nat (d_page d)) by (unfold doc_pages; apply firstn_length_le; unfold zlen in Hle; lia).
  destruct (as_outl _ _ _ _ _ _ A) as (no & _ & tc & Hc & _).
  pose proof (as_n _ _ _ _ _ _ A) as Hn.
  unfold read_pages. rewrite (table_offset_of _ x Sx) by (rewrite Ex; apply zlen_nonneg). cbn [bind]. rewrite R. cbn [bind fst snd].
  rewrite Er. change nl with eol. rewrite (app_assoc (bs "trailer") eol), strip_app. cbn [bind].
  unfold trailer_text. change nl with eol. rewrite entry_of_start. rewrite <- ?app_assoc.
  set (n := w_n (enddoc d (w_init pre))) in *. clearbody n.
  do 5 sk1. rewrite seek_hit by discriminate. cbn [bind]. rewrite reference_dec by lia. cbn [bind fst].
  destruct (OB _ _ Hc) as (r1 & ->). cbn [bind]. rewrite <- ?app_assoc. rewrite entry_of_start. change nl with eol.
  do 4 sk1. change (bs "/Pages 1 0 R") with (bs "/Pages " +++ dec 1 +++ bs " 0 R"). rewrite <- ?app_assoc. rewrite seek_hit by discriminate. cbn [bind].
  rewrite reference_dec by lia. cbn [bind fst].
  destruct (OB _ _ Hp1) as (r2 & ->). cbn [bind]. unfold pages_body. rewrite <- ?app_assoc. change nl with eol.
  change (bs "<</Type /Pages") with (bs "<<" +++ bs "/Type /Pages"). rewrite <- ?app_assoc. rewrite entry_of_start. do 3 sk1. rewrite seek_hit by discriminate. cbn [bind].
  set (ks := odd_from (3 + 2 * zlen ps) (length (doc_pages d))) in *. unfold kids_text.
  assert (Fk : Forall (fun k => 0 <= k) ks).
  { apply Forall_forall. intros k Hk. apply In_nth_error in Hk as (i & Hi). assert (Hi' : (i < length (doc_pages d))%nat).
    { unfold ks in Hi. rewrite <- (odd_from_len (3 + 2 * zlen ps) (length (doc_pages d))). apply nth_error_Some. congruence. }
    unfold ks in Hi. rewrite odd_from_nth in Hi by exact Hi'. injection Hi as <-. pose proof (zlen_nonneg ps). lia. }
  rewrite references_kids; [|exact Fk|]. 2:{ rewrite app_length. pose proof (concat_refs_length ks) as X. cbn beta in X. rewrite (app_length (bs "]")). change (length (bs "]")) with 1%nat. lia. }
  cbn [bind]. apply all_nth; [rewrite map_length; unfold ks; rewrite odd_from_len; reflexivity|].
  intros i k y Hi Hy. fold (doc_pages d) in Hy.
  assert (Hi' : (i < length (doc_pages d))%nat). { rewrite <- (map_length (fun pg => replace_aliases d (pg_content pg))). apply nth_error_Some. congruence. }
  destruct (nth_error (doc_pages d) i) as [pg|] eqn:Epg; [|apply nth_error_None in Epg; lia].
  rewrite (map_nth_error _ _ _ Epg) in Hy. injection Hy as <-. unfold ks in Hi. rewrite odd_from_nth in Hi by exact Hi'. injection Hi as <-.
  destruct (PA i pg Epg) as (a & o & c & Eo & t & body & -> & _ & _ & PE & Eb). pose proof (zlen_nonneg ps) as Hps.
  set (k := 3 + 2 * zlen ps + 2 * Z.of_nat i) in *. assert (Hk0 : 0 <= k) by (unfold k; lia). clearbody k.
  unfold page_content. edestruct (OB k) as (r3 & E3); [rewrite Eo; apply in_or_app; right; left; reflexivity|]. rewrite E3.
  edestruct (OB (k + 1)) as (r4 & E4); [rewrite Eo; apply in_or_app; right; right; left; reflexivity|].
  cbn [bind]. rewrite <- ?app_assoc. change nl with eol.
  rewrite (entry_contents d (att_of d tab) HF (e_shuffle E 3 _ (pg_boxes pg)) (version2 d) pg t (k + 1) (bs "endobj" +++ eol +++ r3)).
  - cbn [bind]. change (bs " 0 R>>") with (bs " 0 R" +++ bs ">>"). rewrite <- ?app_assoc. rewrite reference_dec by lia. cbn [bind fst]. apply (stream_data_of d inflate HI _ _ _ _ r4). rewrite E4, Eb. reflexivity.
  - apply Forall_forall. intros b Hb. apply (HB pg).
    + apply nth_error_In in Epg. unfold doc_pages in Epg. rewrite <- (firstn_skipn (Z.to_nat (d_page d)) (d_pages d)). apply in_or_app. now left.
    + eapply Permutation_in; [apply (wf_order d W)|exact Hb].
  - exact (PE I).
Qed.
Print Assumptions C90_pages_read_back.

(** without aliases, and with the last page the current one: the file holds exactly what was drawn *)
Theorem C90_exact_content :
  forall (E : env) (d : doc (e_num E)) (pre : bytes) (inflate : bytes -> option bytes),
    well_formed d -> finished d pre -> zlength (file_of d pre) < 10 ^ 10 ->
    d_page d = zlength (map (fun _ => 0) (d_pages d)) -> d_alias d = [] -> d_aliasnb d = [] ->
    (forall x, inflate (e_zlib E x) = Some x) ->
    (forall x, no_delimiter (e_fmt2 E x)) ->
    (forall pg b, In pg (d_pages d) -> In b (pg_boxes pg) -> In (fst b) box_names) ->
    read_pages inflate (std_crypt (e_md5 E) (option_map pr_key (d_protect d))) (file_of d pre) = Some (map (@pg_content _) (d_pages d)).
Proof.
  intros E d pre inflate W F S Hp HA HN HI HF HB.
  assert (Hn : Z.to_nat (d_page d) = length (d_pages d)) by (rewrite Hp; unfold zlength; rewrite map_length; lia).
  rewrite (C90_pages_read_back E d pre inflate) by (try assumption; rewrite Hp; unfold zlength; lia).
  rewrite Hn, firstn_all. f_equal. apply map_ext. intros pg. unfold replace_aliases, alias_map. rewrite HN, HA.
  change (0 <? zlen (@nil Z)) with false. cbv iota.
  assert (G : forall n, e_shuffle E n (bytes * bytes) [] = []) by (intros n; apply Permutation_nil; symmetry; apply (wf_order d W)).
  now rewrite !G.
Qed.
Print Assumptions C90_exact_content.

(** The document of C63, with a page box, links with parentheses in their address and an attachment whose annotation has a key
    /Contents of its own, and an encrypted document *)
Definition inflate0 (s : bytes) : option bytes := match s with c :: t => if c =? 122 then Some t else None | [] => None end.
Lemma env0_free : forall x, no_delimiter (e_fmt2 env0 x).
Proof. intros x. cbn [e_fmt2 env0]. apply no_delimiter_app; [apply no_delimiter_dec|]. apply Forall_forall. intros c Hc Hd. cbv in Hc, Hd. lia. Qed.
Definition att90 : attachment := {| at_content := bs "data"; at_name := bs "n"; at_desc := bs "d"; at_objnum := 0 |}.
Definition page90 : page Z :=
  {| pg_content := bs "first"; pg_size := Some (100, 50); pg_boxes := [(bs "CropBox", (1, 2, 3, 4))];
     pg_links := [{| lk_x := 10; lk_y := 90; lk_w := 20; lk_h := 5; lk_link := 0; lk_uri := bs "http://a/Contents 9 0 R(>>" |};
                  {| lk_x := 11; lk_y := 80; lk_w := 20; lk_h := 5; lk_link := 1; lk_uri := [] |}];
     pg_annots := [{| an_att := 0; an_x := 1; an_y := 9; an_w := 2; an_h := 3 |}] |}.
Definition doc90 (prot : option protect) : doc Z := doc0 [page90; page0 (bs "second /Contents 1 0 R") []] 2 [att90] [] [(0, 0); (2, 7)] [] prot.
Example C90_ex : forall prot, In prot [None; Some {| pr_o := bs "o"; pr_u := bs "u"; pr_p := -4; pr_key := [1; 2; 3; 4; 5] |}] ->
  finished (E := env0) (doc90 prot) [] ->
  read_pages inflate0 (std_crypt md5_sum (option_map pr_key prot)) (file_of (E := env0) (doc90 prot) []) =
    Some [bs "first"; bs "second /Contents 1 0 R"].
Proof.
  intros prot Hp F. apply (C90_exact_content env0 (doc90 prot) [] inflate0).
  - apply doc0_wf.
  - exact F.
  - destruct Hp as [<-|[<-|[]]]; vm_compute; reflexivity.
  - reflexivity.
  - reflexivity.
  - reflexivity.
  - intros x. reflexivity.
  - exact env0_free.
  - intros pg b [<-|[<-|[]]] Hb; [destruct Hb as [<-|[]]|destruct Hb]. right. left. reflexivity.
Qed.
Example C90_ex_finished : finished (E := env0) (doc90 None) [] /\ finished (E := env0) (doc90 (Some {| pr_o := bs "o"; pr_u := bs "u"; pr_p := -4; pr_key := [1; 2; 3; 4; 5] |})) [].
Proof. split; split; vm_compute; reflexivity. Qed.
(** the reader at work, without the theorem *)
Example C90_ex_run : read_pages inflate0 (fun _ s => s) (file_of (E := env0) (doc90 None) []) = Some [bs "first"; bs "second /Contents 1 0 R"].
Proof. vm_compute. reflexivity. Qed.
