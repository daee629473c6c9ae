(** C94: the reader extracts the attached files. *)
From Verif Require Import Base TextModel TextSpec TextProofs Crypto DocModel DocSpec DocSort DocProofs DocWalk PageSpec DocPage DocParts DocRes DocRes2 DocEnd DocXref DocLayout DocFile OutlineSpec DocOutline DocBack DocProps DocProps2
  ResSpec ResProofs ResProofs2 ResProofs3 ResProofs4 ResProofs5 CatSpec CatProofs CatProps ReadSpec ReadProofs ReadProps ReadInfoProps ReadOutline ReadOutlineProps.
From Coq Require Import String Permutation.
Open Scope Z_scope.
Notation length := List.length.
Local Notation "a +++ b" := (List.app a b) (at level 60, right associativity, only parsing).

(** ** The name tree *)
Lemma read_plain c d s : c <> 92 -> c <> 40 -> c <> 41 -> c <> 13 -> read_literal d (c :: s) = cons_res c (read_literal d s).
Proof. intros H1 H2 H3 H4. cbn [read_literal]. now rewrite (proj2 (Z.eqb_neq _ _) H1), (proj2 (Z.eqb_neq _ _) H2), (proj2 (Z.eqb_neq _ _) H3), (proj2 (Z.eqb_neq _ _) H4). Qed.
Lemma read_plain_all s r : Forall (fun c => c <> 92 /\ c <> 40 /\ c <> 41 /\ c <> 13) s -> read_literal 0 (s +++ bs ")" +++ r) = Some (s, r).
Proof.
  intros F. induction F as [|c s (H1 & H2 & H3 & H4) F IH]; [reflexivity|]. rewrite <- app_comm_cons, read_plain by assumption. now rewrite IH.
Qed.
Lemma dec_plain k : Forall (fun c => c <> 92 /\ c <> 40 /\ c <> 41 /\ c <> 13) (dec k).
Proof.
  apply Forall_forall. intros c Hc.
  assert (X : is_digit c = true \/ c = 45).
  { unfold dec in Hc. destruct (k <? 0); [destruct Hc as [<-|Hc]; [now right|]|]; left; exact (proj1 (Forall_forall _ _) (DocWalk.dec_nat_digits _) c Hc). }
  unfold is_digit in X. lia.
Qed.
Lemma skip_dec k r : 0 <= k -> skip_white (dec k +++ r) = dec k +++ r.
Proof.
  intros H. destruct (dec_nat_cons k) as (c & t & E & D). assert (E' : dec k = c :: t) by (unfold dec; replace (k <? 0) with false by lia; exact E).
  rewrite E'. rewrite <- app_comm_cons. cbn [skip_white]. unfold is_digit in D. now replace ((c =? 10) || (c =? 32)) with false by lia.
Qed.
Lemma read_name fuel i k r : 0 <= k ->
  read_names (S fuel) (bs "(Attachement" +++ dec i +++ bs ") " +++ ref k +++ r) = match read_names fuel r with Some l => Some (k :: l) | None => None end.
Proof.
  intros Hk. cbn [read_names]. change (skip_white (bs "(Attachement" +++ dec i +++ bs ") " +++ ref k +++ r)) with (bs "(Attachement" +++ dec i +++ bs ") " +++ ref k +++ r).
  change (prefixb (bs "]") (bs "(Attachement" +++ dec i +++ bs ") " +++ ref k +++ r)) with false. cbv iota.
  assert (R : read_string (bs "(Attachement" +++ dec i +++ bs ") " +++ ref k +++ r) = Some (bs "Attachement" +++ dec i, bs " " +++ ref k +++ r)).
  { change (bs "(Attachement" +++ dec i +++ bs ") " +++ ref k +++ r) with (40 :: (bs "Attachement" +++ dec i +++ bs ") " +++ ref k +++ r)).
    unfold read_string. change (40 =? 40) with true. cbv iota. change (bs ") ") with (bs ")" +++ bs " "). rewrite <- ?app_assoc. rewrite (app_assoc (bs "Attachement")).
    apply read_plain_all. apply Forall_app. split; [|apply dec_plain]. repeat constructor; discriminate. }
  rewrite R. cbn [bind fst snd]. change (skip_white (bs " " +++ ref k +++ r)) with (skip_white (ref k +++ r)). unfold ref. rewrite <- ?app_assoc. rewrite skip_dec by exact Hk.
  rewrite reference_dec by exact Hk. cbn [bind fst snd]. reflexivity.
Qed.
Lemma read_names_white fuel c s : c = 10 \/ c = 32 -> read_names fuel (c :: s) = read_names fuel s.
Proof. intros [-> | ->]; destruct fuel; reflexivity. Qed.
Lemma read_names_of ks r : Forall (fun k => 0 <= k) ks -> forall i fuel, (length ks < fuel)%nat ->
  read_names fuel (file_names i ks +++ bs " " +++ eol +++ bs "]" +++ r) = Some ks.
Proof.
  intros F. induction F as [|k ks Hk F IH]; intros i fuel Hf; (destruct fuel as [|fuel]; [cbn in Hf; lia|]).
  - reflexivity.
  - cbn [length] in Hf. cbn [file_names]. destruct ks as [|k2 ks].
    + rewrite <- ?app_assoc. rewrite read_name by exact Hk. change (bs " " +++ bs " " +++ eol +++ bs "]" +++ r) with (32 :: (bs " " +++ eol +++ bs "]" +++ r)).
      rewrite read_names_white by now right. specialize (IH i fuel ltac:(lia)). cbn [file_names app] in IH. now rewrite IH.
    + rewrite <- ?app_assoc. rewrite read_name by exact Hk.
      match goal with |- context [read_names fuel (bs " " +++ eol +++ ?t)] => change (bs " " +++ eol +++ t) with (32 :: 10 :: t) end.
      rewrite !read_names_white by tauto. rewrite IH by lia. reflexivity.
Qed.
Lemma file_names_length ks : forall i, (length ks <= length (file_names i ks))%nat.
Proof.
  induction ks as [|k ks IH]; intros i; [apply Nat.le_refl|]. specialize (IH (i + 1)). cbn [file_names]. destruct ks as [|k2 ks].
  - rewrite !app_length. change (length (bs "(Attachement")) with 12%nat. cbn [length]. lia.
  - rewrite !app_length. change (length (bs "(Attachement")) with 12%nat. cbn [length] in *. lia.
Qed.

(** ** The catalog *)
Section Catalog.
  Local Notation K := (bs "/Names ").
  Lemma names_line t r : scan K 2 0 false t = Some (2%nat, 0%nat, false) -> seek K 2 0 false (line t +++ r) = seek K 2 0 false r.
  Proof. intros H. unfold line. rewrite <- app_assoc. rewrite (seek_lit _ _ _ _ _ H). reflexivity. Qed.
  Lemma names_view zoom r : seek K 2 0 false (view_line zoom +++ r) = seek K 2 0 false r.
  Proof. unfold view_line. repeat (match goal with |- context [if ?c then _ else _] => destruct c end; [apply names_line; reflexivity|]). reflexivity. Qed.
  Lemma names_layout layout r : seek K 2 0 false (layout_line layout +++ r) = seek K 2 0 false r.
  Proof.
    unfold layout_line. destruct (find _ layouts) as [e|] eqn:F; [|reflexivity]. apply find_some in F as [F _]. unfold layouts in F. cbn [In] in F.
    repeat (destruct F as [<-|F]; [apply names_line; reflexivity|]). destruct F.
  Qed.
  Lemma names_layers layers pane r : seek K 2 0 false (layer_lines layers pane +++ r) = seek K 2 0 false r.
  Proof.
    unfold layer_lines. destruct layers as [|l0 ls]; [reflexivity|]. set (l := l0 :: ls). cbv zeta. unfold line at 1. rewrite <- ?app_assoc.
    pose proof (no_delim_refs l) as N1. pose proof (no_delim_refs (filter (fun p => negb (snd p)) l)) as N2.
    set (a := List.concat (map _ l)) in *. set (h := List.concat (map _ (filter _ l))) in *. clearbody a h. clear l.
    do 8 sk1. destruct pane; [apply names_line; reflexivity|reflexivity].
  Qed.
  (** what the reader finds on its way to the names *)
  Lemma catalog_files zoom layout outlines layers pane js files r :
    exists n f l, entry_of K (catalog_text zoom layout outlines layers pane js files +++ r) = Some n /\ entry_of (bs "/EmbeddedFiles ") n = Some f /\
      entry_of (bs "/Names [") f = Some (eol +++ bs " " +++ file_names 1 files +++ bs " " +++ eol +++ bs "]" +++ l).
  Proof.
    assert (G : forall s, entry_of K ((line (bs "<<") +++ line (bs "/Type /Catalog") +++ line (bs "/Pages 1 0 R") +++ view_line zoom +++ layout_line layout +++ s)) = seek K 2 0 false s).
    { intros s. unfold line at 1. rewrite <- ?app_assoc. rewrite entry_of_start. do 2 sk1. rewrite !names_line by reflexivity. rewrite names_view, names_layout. reflexivity. }
    assert (O : forall s, seek K 2 0 false (match outlines with Some k => line (bs "/Outlines " +++ ref k) +++ line (bs "/PageMode /UseOutlines") | None => [] end +++ s) = seek K 2 0 false s).
    { intros s. destruct outlines as [k|]; [|reflexivity]. unfold line, ref. rewrite <- ?app_assoc. sk. reflexivity. }
    assert (J : forall q, seek (bs "/EmbeddedFiles ") 2 0 false (match js with Some k => line (bs "/JavaScript " +++ ref k) | None => [] end +++ q) = seek (bs "/EmbeddedFiles ") 2 0 false q).
    { intros q. destruct js as [k|]; [|reflexivity]. unfold line, ref. rewrite <- ?app_assoc. now sk. }
    unfold catalog_text. rewrite <- ?app_assoc. do 3 eexists. split; [|split].
    - rewrite G, O, names_layers. unfold line at 1. change (bs "/Names <<") with (bs "/Names " +++ bs "<<"). rewrite <- ?app_assoc. rewrite seek_hit by discriminate. reflexivity.
    - rewrite entry_of_start. do 2 sk1. rewrite J. unfold line at 1.
      change (bs "/EmbeddedFiles << /Names [") with (bs "/EmbeddedFiles " +++ bs "<< /Names ["). rewrite <- ?app_assoc. rewrite seek_hit by discriminate. reflexivity.
    - change (bs "<< /Names [") with (bs "<<" +++ bs " " +++ bs "/Names ["). rewrite <- ?app_assoc. rewrite entry_of_start. do 2 sk1. rewrite seek_hit by discriminate.
      change (bs "] >>") with (bs "]" +++ bs " >>"). rewrite <- ?app_assoc. reflexivity.
  Qed.
End Catalog.

(** ** An attachment *)
Section File.
  Context {E : env} (d : doc (e_num E)) (inflate : bytes -> option bytes).
  Hypothesis inflate_zlib : forall x, inflate (e_zlib E x) = Some x.
  Hypothesis hex_free : forall x, no_delimiter (e_hex E (e_md5 E x)).
  Local Notation unlock := (std_crypt (e_md5 E) (option_map pr_key (d_protect d))).
  Lemma unlock_cipher k x : unlock k (cipher d k x) = x.
  Proof using.
    clear. transitivity (unlock k (unlock k x)); [|apply std_crypt_invol]. f_equal. unfold cipher, std_crypt. now destruct (d_protect d).
  Qed.
  Lemma file_length c r : exists r', entry_of (bs "/Length ") (file_dict (E := E) c +++ r) = Some (dec (zlen (e_zlib E c)) +++ bs " " +++ r').
  Proof using.
    clear. eexists. unfold file_dict, file_params. change (bs "<< /Type /EmbeddedFile /Length ") with (bs "<<" +++ bs " /Type /EmbeddedFile " +++ bs "/Length ").
    change (bs " /Filter /FlateDecode /Params << /CheckSum <") with (bs " " +++ bs "/Filter /FlateDecode /Params << /CheckSum <").
    rewrite <- ?app_assoc. rewrite entry_of_start. do 2 sk1. rewrite seek_hit by discriminate. reflexivity.
  Qed.
  Lemma file_filter c r : exists r', entry_of (bs "/Filter ") (file_dict (E := E) c +++ r) = Some (bs "/FlateDecode " +++ r').
  Proof using.
    clear. unfold file_dict, file_params. generalize (zlen (e_zlib E c)) (zlen c). intros n m. eexists. change (bs "<< /Type /EmbeddedFile /Length ") with (bs "<<" +++ bs " /Type /EmbeddedFile /Length ").
    change (bs " /Filter /FlateDecode /Params << /CheckSum <") with (bs " " +++ bs "/Filter " +++ bs "/FlateDecode " +++ bs "/Params << /CheckSum <").
    rewrite <- ?app_assoc. rewrite entry_of_start. do 4 sk1. rewrite seek_hit by discriminate. reflexivity.
  Qed.
  Lemma past_file c r : past 0 0 false (file_dict (E := E) c +++ r) = Some (eol +++ eol +++ r).
  Proof using hex_free.
    unfold file_dict, file_params. generalize (zlen (e_zlib E c)) (zlen c). intros n m. rewrite <- ?app_assoc.
    match goal with |- past 0 0 false (bs "<< /Type /EmbeddedFile /Length " +++ ?s) = _ => transitivity (past 2 0 false s); [reflexivity|] end.
    rewrite past_free by apply no_delimiter_dec.
    match goal with |- past 2 0 false (?a +++ ?s) = _ => transitivity (past 5 0 false s); [reflexivity|] end.
    rewrite past_free by apply hex_free.
    match goal with |- past 5 0 false (?a +++ ?s) = _ => transitivity (past 4 0 false s); [reflexivity|] end.
    rewrite past_free by apply no_delimiter_dec. reflexivity.
  Qed.
  Lemma file_stream file table k c r : object_from file table k = Some ((file_dict (E := E) c +++ stream_text (cipher d k (e_zlib E c))) +++ bs "endobj" +++ eol +++ r) ->
    stream_data inflate unlock file table k = Some c.
  Proof using inflate_zlib hex_free.
    intros H. unfold stream_data. rewrite H. cbn [bind]. clear H. unfold stream_text. change nl with eol. rewrite <- ?app_assoc.
    match goal with |- context [file_dict c +++ ?t] => destruct (file_length c t) as (r1 & ->); destruct (file_filter c t) as (r2 & ->); rewrite (past_file c t) end.
    cbn [bind]. rewrite read_dec_dec by (try apply zlen_nonneg; reflexivity). cbn [bind fst].
    match goal with |- context [skip_white (eol +++ eol +++ bs "stream" +++ ?t)] => change (skip_white (eol +++ eol +++ bs "stream" +++ t)) with (bs "stream" +++ t) end.
    rewrite strip2. cbn [bind].
    set (x := cipher d k (e_zlib E c)) in *.
    assert (Hc : Z.to_nat (zlen (e_zlib E c)) = length x). { unfold x. pose proof (cipher_len d k (e_zlib E c)) as X. unfold zlen in *. lia. }
    rewrite Hc, skipn_app, skipn_all, Nat.sub_diag. cbn [skipn app].
    rewrite strip5. cbn [bind]. rewrite firstn_app, firstn_all, Nat.sub_diag. cbn [firstn]. rewrite app_nil_r.
    unfold x. rewrite unlock_cipher. rewrite (proj2 (prefixb_spec (bs "/FlateDecode ") _)) by (eexists; reflexivity). apply inflate_zlib.
  Qed.
  Lemma code_units_of t : Forall (fun r => 0 <= r < 65536) t -> code_units (utf16be t) = Some t.
  Proof using.
    clear. intros F. induction F as [|r t H F IH]; [reflexivity|]. assert (E1 : utf16be (r :: t) = r / 256 :: r mod 256 :: utf16be t) by (unfold utf16be; cbn [flat_map]; unfold utf16be_1; replace (r <? 65536) with true by lia; reflexivity).
    rewrite E1. cbn [code_units]. rewrite IH. cbn [bind]. do 2 f_equal. pose proof (Z.div_mod r 256 ltac:(lia)). lia.
  Qed.
  Lemma attached file table k a b1 b2 name r1 r2 : 0 <= k ->
    att_exact d k a b1 b2 -> at_name a = utf8 name -> Forall (fun r => 0 <= r < 65536) name ->
    object_from file table k = Some (b1 +++ bs "endobj" +++ eol +++ r1) -> object_from file table (k + 1) = Some (b2 +++ bs "endobj" +++ eol +++ r2) ->
    attached_file inflate unlock file table (k + 1) = Some (name, at_content a).
  Proof using inflate_zlib hex_free.
    intros Hk (E1 & n16 & t & U & E2) En Fn O1 O2. subst b1 b2. rewrite En, utf8toutf16_bmp in U by exact Fn. injection U as <-.
    unfold attached_file. rewrite O2. cbn [bind]. clear O2. set (enc := cipher d (k + 1) _).
    assert (Ee : unlock (k + 1) enc = [254; 255] +++ utf16be name) by apply unlock_cipher. clearbody enc. rewrite <- ?app_assoc.
    change (bs "<< /Type /Filespec /F () /UF ") with (bs "<<" +++ bs " /Type /Filespec /F () " +++ bs "/UF "). rewrite <- ?app_assoc.
    rewrite !entry_of_start. do 2 sk1. rewrite seek_hit by discriminate. cbn [bind].
    assert (T1 : forall s, read_string (bs "(" +++ escape enc +++ bs ")" +++ s) = Some (enc, s)).
    { intros s. pose proof (textstring_roundtrip enc s) as T. unfold textstring in T. rewrite <- app_comm_cons, <- app_assoc in T. exact T. }
    assert (T2 : forall s, seek (bs "/EF ") 2 0 false (bs "(" +++ escape enc +++ bs ")" +++ s) = seek (bs "/EF ") 2 0 false s).
    { intros s. pose proof (seek_string2 (bs "/EF ") 2 (textstring enc) s enc) as X. unfold textstring in X. rewrite <- app_comm_cons, <- app_assoc in X. apply X; [reflexivity|exact (T1 s)]. }
    rewrite T1.
    cbn [bind fst]. rewrite Ee. unfold text_string. rewrite strip_app. cbn [bind]. rewrite code_units_of by exact Fn. cbn [bind].
    do 3 sk1. rewrite T2. change (bs " /EF << /F ") with (bs " " +++ bs "/EF " +++ bs "<<" +++ bs " " +++ bs "/F "). rewrite <- ?app_assoc. sk1. rewrite seek_hit by discriminate. cbn [bind].
    rewrite entry_of_start. do 2 sk1. rewrite seek_hit by discriminate. cbn [bind].
    change (bs " 0 R >> /Desc ") with (bs " 0 R" +++ bs " >> /Desc "). rewrite <- ?app_assoc. rewrite reference_dec by exact Hk. cbn [bind fst].
    rewrite (file_stream file table k (at_content a) r1) by exact O1. reflexivity.
  Qed.
End File.

(** the attached files of a document: for each attachment of its list, in order, the name as code points below 65536 and the content;
    none has been written to another document before *)
Definition attached_as {E : env} (d : doc (e_num E)) (files : list (list Z * bytes)) : Prop :=
  Forall2 (fun p f => exists a, at_ (d_atts d) p = Some a /\ at_objnum a = 0 /\ at_name a = utf8 (fst f) /\ Forall (fun r => 0 <= r < 65536) (fst f) /\ at_content a = snd f)
    (d_docatts d) files.

Theorem C94_files_read_back_partial :
  forall (E : env) (d : doc (e_num E)) (pre : bytes) (inflate : bytes -> option bytes) (files : list (list Z * bytes)),
    well_formed d -> finished d pre -> resources_sound d -> zlength (file_of d pre) < 10 ^ 10 ->
    (forall x, inflate (e_zlib E x) = Some x) ->
    (forall x, no_delimiter (e_hex E (e_md5 E x))) ->
    attached_as d files ->
    read_files inflate (std_crypt (e_md5 E) (option_map pr_key (d_protect d))) (file_of d pre) = Some files.
Proof.
  intros E d pre inflate files W F RS S HI HX HA. destruct (enddoc_assembled d pre (well_formed_inputs d W) F) as (os & ps & oa & A).
  destruct (tables d _ _ _ _ _ A S) as (x & offs & enc & rest & Sx & _ & Hlo & R & Er & _ & Ex & Hoff & _).
  fold (file_of d pre) in *. set (table := Free 0 65535 :: map (fun o => InUse o 0) offs) in *.
  assert (OB : forall k body, In (obj k body) os -> exists r, object_from (file_of d pre) table k = Some (body +++ bs "endobj" +++ eol +++ r)).
  { intros k body Hin. unfold obj in Hin. destruct (Hoff _ _ Hin) as (off & Hn & Hf).
    assert (Hk : 1 <= k <= w_n (enddoc d (w_init pre))) by (eapply (num_range d); [exact A|]; apply (in_map fst) in Hin; exact Hin).
    eapply (object_from_found _ _ _ off); [|exact Hf]. replace (Z.to_nat k) with (Datatypes.S (Z.to_nat (k - 1))) by lia. exact (map_nth_error (fun o => InUse o 0) _ _ Hn). }
  destruct (as_end _ _ _ _ _ _ A) as (w2 & o1 & w6 & ti & tc & n & C2 & N1 & N2 & H2 & Hl & Hc & Hok & Ha & Hi & Ai & Ii & Ac & Ic & C6 & OW & OS & JS & Q).
  pose proof (as_n _ _ _ _ _ _ A) as Hn.
  set (w3 := put_pages d w2) in *. set (w7 := put_info_obj d w6) in *. set (fin := w_n (enddoc d (w_init pre))) in *.
  destruct (all_stages d (wf_order _ W) RS (wf_ptr _ W) (in_imp _ (well_formed_inputs d W)) w3 o1) as (AL & Qk); auto.
  assert (Nc : w_n w7 + 1 = fin). { pose proof (ad_nums _ _ _ Ac) as X. cbn [map length nums fst obj] in X. congruence. }
  rewrite <- Nc in Ac. pose proof (put_catalog_obj_text d w7 tc Ac) as ->. clear Ac.
  unfold read_files. rewrite (table_offset_of _ x Sx) by (rewrite Ex; apply zlen_nonneg). cbn [bind]. rewrite R. cbn [bind fst snd].
  rewrite Er. change nl with eol. rewrite (app_assoc (bs "trailer") eol), strip_app. cbn [bind].
  unfold trailer_text. change nl with eol. rewrite entry_of_start. rewrite <- ?app_assoc.
  clearbody table. clearbody fin.
  do 5 sk1. rewrite seek_hit by discriminate. cbn [bind]. rewrite reference_dec by lia. cbn [bind fst].
  destruct (OB _ _ Ic) as (r1 & ->). cbn [bind].
  match goal with |- context [catalog_text ?a ?b ?c ?e ?f ?g ?h +++ ?r] => destruct (catalog_files a b c e f g h r) as (nn & ff & ll & -> & EF & EN) end.
  cbn [bind]. rewrite EF. cbn [bind]. rewrite EN. cbn [bind]. clear EF EN nn ff.
  assert (Q2 : forall p, att_of d (w_tab w7) p = att_of d (w_tab w2) p).
  { intros p. unfold att_of. rewrite Q, Qk by (try discriminate; reflexivity). unfold w3. rewrite put_pages_tab; [reflexivity|exact C2|].
    fold w3. unfold before_dict in Hok. apply put_imported_ok, put_tpls_ok, put_image_list_ok in Hok. now apply (put_res_objects_adds d w3 Hc) in Hok as (_ & _ & _ & Hk). }
  destruct (as_att _ _ _ _ _ _ A) as (AO & ND & HP & HN & r & Er2).
  assert (GA : forall ps k oa i p, att_objs d k ps oa -> nth_error ps i = Some p -> exists a b1 b2, at_ (d_atts d) p = Some a /\
    In (obj (k + 2 * Z.of_nat i) b1) oa /\ In (obj (k + 2 * Z.of_nat i + 1) b2) oa /\ att_exact d (k + 2 * Z.of_nat i) a b1 b2).
  { clear. induction ps as [|q ps IH]; intros k oa i p H Hi; [destruct i; discriminate Hi|].
    destruct H as (o & os' & -> & (a & b1 & b2 & Ea & -> & (_ & _ & S1) & S2) & H2). destruct i as [|i].
    - injection Hi as <-. rewrite Z.add_0_r. exists a, b1, b2. split; [exact Ea|]. split; [now left|]. split; [right; now left|]. exact S1.
    - cbn [nth_error] in Hi. destruct (IH _ _ _ _ H2 Hi) as (a' & c1 & c2 & X1 & X2 & X3 & X4).
      replace (k + 2 * Z.of_nat (Datatypes.S i)) with (k + 2 + 2 * Z.of_nat i) by lia. exists a', c1, c2. split; [exact X1|].
      split; [right; right; exact X2|]. split; [right; right; exact X3|]. exact X4. }
  set (ks := att_nums d (w_tab w7)) in *.
  assert (G : forall p, In p (d_docatts d) -> forall a, at_ (d_atts d) p = Some a -> at_objnum a = 0 ->
    exists k b1 b2 r1 r2, 0 <= k /\ att_of d (w_tab w7) p = k + 1 /\ att_exact d k a b1 b2 /\
      object_from (file_of d pre) table k = Some (b1 +++ bs "endobj" +++ eol +++ r1) /\ object_from (file_of d pre) table (k + 1) = Some (b2 +++ bs "endobj" +++ eol +++ r2)).
  { intros p Hp a Ea Ez. assert (Hu : In p (used_atts d)) by (unfold used_atts; apply in_or_app; now left).
    assert (Hps : In p ps). { apply HP. split; [exact Hu|]. unfold att_num. cbn [w_tab find_slot w_init]. now rewrite Ea. }
    apply In_nth_error in Hps as (i & Hips). destruct (GA _ _ _ _ _ AO Hips) as (a' & b1 & b2 & X1 & X2 & X3 & X4). rewrite Ea in X1. injection X1 as <-.
    destruct (OB (3 + 2 * Z.of_nat i) b1) as (q1 & O1); [rewrite Er2; apply in_or_app; now left|].
    destruct (OB (3 + 2 * Z.of_nat i + 1) b2) as (q2 & O2); [rewrite Er2; apply in_or_app; now left|].
    exists (3 + 2 * Z.of_nat i), b1, b2, q1, q2. split; [lia|]. split; [rewrite Q2, (N1 i p Hips); lia|]. auto. }
  assert (Fk : Forall (fun k => 0 <= k) ks).
  { unfold ks, att_nums. apply Forall_forall. intros k Hk. apply in_map_iff in Hk as (p & <- & Hp). pose proof HA as HA'.
    apply In_nth_error in Hp as (i & Hi'). pose proof (nth_error_In _ _ Hi') as Hin. clear Hi'.
    assert (X : exists a, at_ (d_atts d) p = Some a /\ at_objnum a = 0).
    { clear - HA' Hin. induction HA' as [|q f l fl (a & E1 & E2 & _) _ IH]; [destruct Hin|]. destruct Hin as [->|Hin]; [eauto|now apply IH]. }
    destruct X as (a & Ea & Ez). destruct (G p Hin a Ea Ez) as (k & b1 & b2 & q1 & q2 & Hk & -> & _). lia. }
  change (eol +++ bs " " +++ file_names 1 ks +++ bs " " +++ eol +++ bs "]" +++ ll) with (10 :: 32 :: (file_names 1 ks +++ bs " " +++ eol +++ bs "]" +++ ll)).
  rewrite !read_names_white by tauto. rewrite read_names_of; [|exact Fk|].
  2:{ cbn [length]. rewrite app_length. pose proof (file_names_length ks 1). lia. }
  cbn [bind].
  assert (GG : forall l fl, incl l (d_docatts d) ->
    Forall2 (fun p f => exists a, at_ (d_atts d) p = Some a /\ at_objnum a = 0 /\ at_name a = utf8 (fst f) /\ Forall (fun r => 0 <= r < 65536) (fst f) /\ at_content a = snd f) l fl ->
    all (attached_file inflate (std_crypt (e_md5 E) (option_map pr_key (d_protect d))) (file_of d pre) table) (map (att_of d (w_tab w7)) l) = Some fl).
  { intros l fl Hin F2. induction F2 as [|p f l fl (a & Ea & Ez & En & Fn & Ec) F2 IH]; [reflexivity|]. cbn [map all].
    destruct (G p (Hin p (or_introl eq_refl)) a Ea Ez) as (k & b1 & b2 & q1 & q2 & Hk & -> & X & O1 & O2).
    rewrite (attached d inflate HI HX (file_of d pre) table k a b1 b2 (fst f) q1 q2 Hk X En Fn O1 O2). rewrite IH by (intros y Hy; apply Hin; now right).
    rewrite Ec. now destruct f. }
  apply GG; [intros y Hy; exact Hy|exact HA].
Qed.
Print Assumptions C94_files_read_back_partial.

(** Three attachments, the names and contents of which hold delimiters and the keys the reader looks for; plain and encrypted *)
Definition file94 (name content : bytes) : attachment := {| at_content := content; at_name := name; at_desc := bs "d"; at_objnum := 0 |}.
Definition list94 : list (list Z * bytes) := [(bs "a)(/EF.txt", bs "endstream endobj /EmbeddedFiles"); ([8364; 40; 228; 55296], []); (bs "b\", bs ">>data")].
Definition doc94 (prot : option protect) : doc Z :=
  doc0 [page0 (bs "first") []] 1 (map (fun f => file94 (utf8 (fst f)) (snd f)) list94) [0; 1; 2] [] [] prot.
Lemma le_bytes_byte k : forall x, Forall (fun b => 0 <= b < 256) (le_bytes k x).
Proof. induction k as [|k IH]; intros x; cbn [le_bytes]; constructor; [apply Z.mod_pos_bound; lia|apply IH]. Qed.
Lemma hex_free0 : forall x, no_delimiter (e_hex env0 (e_md5 env0 x)).
Proof.
  intros x. cbn [e_hex e_md5 env0].
  assert (B : Forall (fun b => 0 <= b < 256) (md5_sum x)).
  { unfold md5_sum. destruct (md5_blocks _ _ _ _ _ _) as [[[a b] c] e]. repeat (apply Forall_app; split); apply le_bytes_byte. }
  induction B as [|b l Hb B IH]; [constructor|]. cbn [flat_map app].
  assert (D : forall v, 0 <= v < 16 -> ~ In (hex_digit v) (bs "()<>[]/")).
  { intros v Hv H. change (bs "()<>[]/") with [40; 41; 60; 62; 91; 93; 47] in H. cbn [In] in H. unfold hex_digit in H. destruct (v <? 10) eqn:E; lia. }
  constructor; [apply D; split; [apply Z.div_pos; lia|apply Z.div_lt_upper_bound; lia]|]. constructor; [apply D, Z.mod_pos_bound; lia|exact IH].
Qed.
Lemma doc94_attached prot : attached_as (E := env0) (doc94 prot) list94.
Proof.
  unfold attached_as. assert (B : forall t, forallb (fun r => (0 <=? r) && (r <? 65536)) t = true -> Forall (fun r => 0 <= r < 65536) t).
  { intros t H. apply Forall_forall. intros r Hr. rewrite forallb_forall in H. specialize (H r Hr). lia. }
  repeat constructor; (eexists; split; [reflexivity|]; split; [reflexivity|]; split; [reflexivity|]; split; [apply B; reflexivity|reflexivity]).
Qed.
Example C94_ex : forall prot, In prot [None; Some prot92] ->
  finished (E := env0) (doc94 prot) [] /\ read_files inflate0 (std_crypt (e_md5 env0) (option_map pr_key prot)) (file_of (E := env0) (doc94 prot) []) = Some list94.
Proof.
  intros prot Hp.
  assert (F : finished (E := env0) (doc94 prot) []) by (destruct Hp as [<-|[<-|[]]]; split; vm_compute; reflexivity).
  split; [exact F|].
  apply (C94_files_read_back_partial env0 (doc94 prot) [] inflate0 list94); [|exact F| | | |exact hex_free0|apply doc94_attached].
  - constructor; try (intros; contradiction); [reflexivity|apply env0_fmt].
  - constructor; try (intros; contradiction); try constructor.
  - destruct Hp as [<-|[<-|[]]]; vm_compute; reflexivity.
  - intros x. reflexivity.
Qed.

(** A name with a character outside the basic multilingual plane is not read back: U+1F600 becomes another character *)
Theorem C94_name_refuted :
  let d := doc0 [page0 (bs "first") []] 1 [file94 (utf8 [97; 128512; 98]) (bs "data")] [0] [] [] None in
  finished (E := env0) d [] /\ exists name, read_files inflate0 (fun _ s => s) (file_of (E := env0) d []) = Some [(name, bs "data")] /\
    name <> [97; 128512; 98] /\ name <> [97; 55357; 56832; 98].
Proof. split; [split; vm_compute; reflexivity|]. eexists. split; [vm_compute; reflexivity|]. split; discriminate. Qed.
Print Assumptions C94_name_refuted.
(** An attachment that was written to another document before cannot be read from this one *)
Theorem C94_second_document_refuted :
  let first := doc_att2 att0 in
  let second := doc_att2 (after_output (E := env0) first 0 att0) in
  read_files inflate0 (fun _ s => s) (file_of (E := env0) first []) = Some [(bs "n", bs "data")] /\
  finished (E := env0) second [] /\ read_files inflate0 (fun _ s => s) (file_of (E := env0) second []) = None.
Proof. cbv zeta. split; [vm_compute; reflexivity|]. split; [split; vm_compute; reflexivity|vm_compute; reflexivity]. Qed.
Print Assumptions C94_second_document_refuted.
