(** C96: the reader gets the links of every page. *)
From Verif Require Import Base TextModel TextSpec TextProofs Crypto DocModel DocSpec DocSort DocProofs DocWalk PageSpec DocPage DocParts DocRes DocRes2 DocEnd DocXref DocLayout DocFile OutlineSpec DocOutline DocBack DocProps
  ReadSpec ReadProofs ReadProps ReadBoxProps.
From Coq Require Import String Permutation.
Open Scope Z_scope.
Notation length := List.length.
Local Notation "a +++ b" := (List.app a b) (at level 60, right associativity, only parsing).

(** ** Passing over a string *)
Lemma past_plain_char nest n b t : b <> 92 -> b <> 40 -> b <> 41 -> past nest (S n) false (b :: t) = past nest (S n) false t.
Proof. intros H1 H2 H3. cbn [past]. now rewrite (proj2 (Z.eqb_neq _ _) H1), (proj2 (Z.eqb_neq _ _) H2), (proj2 (Z.eqb_neq _ _) H3). Qed.
Lemma past_escape nest n e t : past nest (S n) false (92 :: e :: t) = past nest (S n) false t.
Proof. reflexivity. Qed.
Lemma octal_plain2 e : is_octal e = true -> e <> 92 /\ e <> 40 /\ e <> 41.
Proof. unfold is_octal. lia. Qed.
Lemma past_literal nest n : forall s depth c rest, (length s <= n)%nat -> read_literal depth s = Some (c, rest) ->
  past nest (S depth) false s = past nest 0 false rest.
Proof.
  induction n as [|n IH]; intros s depth c rest Hl H; [destruct s; [discriminate H|cbn in Hl; lia]|].
  assert (G : forall x o, cons_res x o = Some (c, rest) -> exists c', o = Some (c', rest)).
  { intros x [[c' r]|] X; [|discriminate X]. cbn in X. injection X as _ <-. eauto. }
  assert (R : forall x t dp, (length t <= n)%nat -> cons_res x (read_literal dp t) = Some (c, rest) -> past nest (S dp) false t = past nest 0 false rest).
  { intros x t dp Ht X. apply G in X as (c' & X). eapply IH; eauto. }
  destruct s as [|b s]; [discriminate H|]. cbn [length] in Hl. cbn [read_literal] in H.
  destruct (b =? 92) eqn:E92.
  - apply Z.eqb_eq in E92. subst b. destruct s as [|e t2]; [discriminate H|]. cbn [length] in Hl. rewrite past_escape.
    repeat match type of H with (if ?x =? ?v then cons_res _ _ else _) = _ => destruct (x =? v); [eapply R; [|exact H]; lia|] end.
    destruct (e =? 13).
    { destruct t2 as [|l t3]; [discriminate H|]. cbn [length] in Hl. destruct (l =? 10) eqn:E; [|eapply IH; [|exact H]; cbn [length]; lia].
      apply Z.eqb_eq in E. subst l. rewrite past_plain_char by lia. eapply IH; [|exact H]. lia. }
    destruct (e =? 10); [eapply IH; [|exact H]; lia|].
    destruct (is_octal e); [|eapply R; [|exact H]; lia].
    destruct t2 as [|e2 t3]; [discriminate H|]. cbn [length] in Hl. destruct (is_octal e2) eqn:O2; [|eapply R; [|exact H]; cbn [length]; lia].
    destruct t3 as [|e3 t4]; [discriminate H|]. cbn [length] in Hl. apply octal_plain2 in O2 as (? & ? & ?). rewrite past_plain_char by assumption.
    destruct (is_octal e3) eqn:O3; [|eapply R; [|exact H]; cbn [length]; lia].
    apply octal_plain2 in O3 as (? & ? & ?). rewrite past_plain_char by assumption. eapply R; [|exact H]. lia.
  - apply Z.eqb_neq in E92. destruct (b =? 40) eqn:E40.
    { apply Z.eqb_eq in E40. subst b. cbn [past]. eapply R; [|exact H]. lia. }
    destruct (b =? 41) eqn:E41.
    { apply Z.eqb_eq in E41. subst b. destruct depth as [|dp].
      - injection H as _ <-. cbn [past]. reflexivity.
      - change (past nest (S (S dp)) false (41 :: s)) with (past nest (S dp) false s). eapply R; [|exact H]. lia. }
    apply Z.eqb_neq in E40. apply Z.eqb_neq in E41. rewrite past_plain_char by assumption.
    destruct (b =? 13); [|eapply R; [|exact H]; lia].
    destruct s as [|l t2]; [discriminate H|]. cbn [length] in Hl. destruct (l =? 10) eqn:E; [|eapply R; [|exact H]; cbn [length]; lia].
    apply Z.eqb_eq in E. subst l. rewrite past_plain_char by lia. eapply R; [|exact H]. lia.
Qed.

Lemma string_opens u c : (forall rest, read_string (u +++ rest) = Some (c, rest)) -> exists u', u = 40 :: u' /\ forall rest, read_literal 0 (u' +++ rest) = Some (c, rest).
Proof.
  intros H. destruct u as [|b u].
  - specialize (H []). discriminate H.
  - pose proof (H []) as H0. unfold read_string in H0. cbn [app] in H0. destruct (b =? 40) eqn:E; [|discriminate H0]. apply Z.eqb_eq in E. subst b.
    exists u. split; [reflexivity|]. intros rest. specialize (H rest). exact H.
Qed.

(** ** One link *)
Section Link.
  Context {E : env} (d : doc (e_num E)) (kids : list Z).
  Hypothesis fmt_free : forall x, no_delimiter (e_fmt2 E x).
  Hypothesis plain : d_protect d = None.
  Notation fmt := (e_fmt2 E).
  Definition rect_text (lk : link (e_num E)) : bytes :=
    fmt (lk_x lk) +++ bs " " +++ fmt (lk_y lk) +++ bs " " +++ fmt (e_nadd E (lk_x lk) (lk_w lk)) +++ bs " " +++ fmt (e_nsub E (lk_y lk) (lk_h lk)).
  Definition view_text (p : Z) (y : e_num E) : bytes := bs " /XYZ 0 " +++ fmt (e_nsub E (height_of d p) (e_nmul E y (d_k d))) +++ bs " null".
  Lemma rect_free lk : no_delimiter (rect_text lk).
  Proof using fmt_free. unfold rect_text. repeat apply no_delimiter_app; try apply fmt_free; apply no_delim_lit; reflexivity. Qed.
  Lemma link_form lk t : link_annotation d lk t -> exists action,
    t = bs "<<" +++ bs "/Type /Annot " +++ bs "/Subtype /" +++ bs "Link " +++ bs "/Rect [" +++ rect_text lk +++ bs "]" +++ bs " /Border [0 0 0] " +++ action /\
    (lk_link lk = 0 -> exists u, (forall rest, read_literal 0 (u +++ rest) = Some (lk_uri lk, rest)) /\ action = bs "/A " +++ bs "<</S /URI /URI (" +++ u +++ bs ">>" +++ bs ">" +++ bs ">") /\
    (lk_link lk <> 0 -> exists p y, at_ (d_links d) (lk_link lk) = Some (p, y) /\ action = bs "/Dest [" +++ dec (1 + 2 * p) +++ bs " 0 R" +++ view_text p y +++ bs "]" +++ bs ">" +++ bs ">").
  Proof using plain.
    intros (action & -> & H0 & H1). exists action. split; [|split].
    - unfold rect, rect_text. rewrite <- ?app_assoc. reflexivity.
    - intros E0. destruct (H0 E0) as (u & (c & Hu & _ & Hp) & ->). specialize (Hp plain). subst c. destruct (string_opens _ _ Hu) as (u' & -> & Hl).
      exists u'. split; [exact Hl|]. rewrite <- ?app_assoc. reflexivity.
    - intros E0. destruct (H1 E0) as (p & y & Hl & ->). exists p, y. split; [exact Hl|]. unfold view_text. rewrite <- ?app_assoc. reflexivity.
  Qed.
  Definition link_value (lk : link (e_num E)) : bytes * target :=
    (rect_text lk,
     if lk_link lk =? 0 then Address (lk_uri lk)
     else match at_ (d_links d) (lk_link lk) with
          | Some (p, y) => match position (1 + 2 * p) 1 kids with Some i => OnPage i (view_text p y) | None => Nowhere end
          | None => Nowhere end).
  Lemma view_free p y : no_delimiter (fmt (e_nsub E (height_of d p) (e_nmul E y (d_k d))) +++ bs " null").
  Proof using fmt_free. apply no_delimiter_app; [apply fmt_free|apply no_delim_lit; reflexivity]. Qed.
  Lemma upto_view p y r : upto_bracket (view_text p y +++ bs "]" +++ r) = view_text p y.
  Proof using fmt_free.
    unfold view_text. change (bs " /XYZ 0 ") with (32 :: 47 :: bs "XYZ 0 "). rewrite <- ?app_comm_cons. cbn [upto_bracket Z.eqb Pos.eqb]. do 2 f_equal.
    apply upto_free. apply no_delimiter_app; [apply no_delim_lit; reflexivity|apply view_free].
  Qed.
  Lemma link_read lk t r : (forall p y, lk_link lk <> 0 -> at_ (d_links d) (lk_link lk) = Some (p, y) -> 0 <= p) -> link_annotation d lk t ->
    (exists s, entry_of (bs "/Subtype /") (t +++ r) = Some (bs "Link " +++ s)) /\ link_at kids (t +++ r) = Some (link_value lk) /\ past 0 0 false (t +++ r) = Some r.
  Proof using fmt_free plain.
    intros Hq H. pose proof (rect_free lk) as RF. destruct (link_form lk t H) as (action & -> & HA & HD). clear H. unfold link_value, link_at.
    set (rt := rect_text lk) in *. clearbody rt. split; [|split].
    - eexists. rewrite <- ?app_assoc. rewrite entry_of_start. do 2 sk1. rewrite seek_hit by discriminate. reflexivity.
    - rewrite <- ?app_assoc. rewrite !entry_of_start.
      match goal with |- context [bs "/Subtype /" +++ bs "Link " +++ ?x] => change (bs "/Subtype /" +++ bs "Link " +++ x) with (bs "/Subtype /Link " +++ x) end.
      sk. rewrite (seek_hit (bs "/Rect [")) by discriminate. cbn [bind]. rewrite upto_free by exact RF.
      destruct (Z.eq_dec (lk_link lk) 0) as [E0|E0].
      + destruct (HA E0) as (u & Hu & ->). rewrite E0. change (0 =? 0) with true. cbv iota. rewrite <- ?app_assoc.
        sk. rewrite (seek_hit (bs "/A ")) by discriminate.
        match goal with |- context [entry_of (bs "/URI (") (bs "<</S /URI /URI (" +++ ?s)] => change (entry_of (bs "/URI (") (bs "<</S /URI /URI (" +++ s)) with (Some s) end.
        cbn [bind]. rewrite Hu. reflexivity.
      + destruct (HD E0) as (p & y & Hl & ->). rewrite (proj2 (Z.eqb_neq _ _) E0), Hl. rewrite <- ?app_assoc. pose proof (view_free p y) as VF.
        assert (SA : forall q, seek (bs "/A ") 2 0 false (bs "/Dest [" +++ dec (1 + 2 * p) +++ bs " 0 R" +++ view_text p y +++ bs "]" +++ bs ">" +++ bs ">" +++ q) = None).
        { intros q. unfold view_text. rewrite <- ?app_assoc. sk. reflexivity. }
        rewrite (SA r). clear SA.  rewrite (seek_hit (bs "/Dest [")) by discriminate. cbn [bind].
        rewrite reference_dec by (specialize (Hq _ _ E0 Hl); lia). cbn [bind fst snd]. rewrite upto_view. reflexivity.
    - rewrite <- ?app_assoc.
      match goal with |- past 0 0 false (_ +++ _ +++ _ +++ _ +++ _ +++ ?s) = _ => transitivity (past 3 0 false s); [reflexivity|] end.
      rewrite past_free by exact RF.
      match goal with |- past 3 0 false (_ +++ _ +++ ?s) = _ => transitivity (past 2 0 false s); [reflexivity|] end.
      destruct (Z.eq_dec (lk_link lk) 0) as [E0|E0].
      + destruct (HA E0) as (u & Hu & ->). rewrite <- ?app_assoc.
        match goal with |- past 2 0 false (_ +++ _ +++ ?s) = _ => transitivity (past 4 1 false s); [reflexivity|] end.
        rewrite (past_literal 4 _ _ 0 _ _ (le_n _) (Hu _)). reflexivity.
      + destruct (HD E0) as (p & y & Hl & ->). unfold view_text. rewrite <- ?app_assoc.
        match goal with |- past 2 0 false (_ +++ ?s) = _ => transitivity (past 3 0 false s); [reflexivity|] end.
        rewrite past_free by apply no_delimiter_dec.
        match goal with |- past 3 0 false (_ +++ _ +++ ?s) = _ => transitivity (past 3 0 false s); [reflexivity|] end.
        rewrite past_free by apply fmt_free. reflexivity.
  Qed.
  Lemma link_opens lk t : link_annotation d lk t -> exists t', t = 60 :: t'.
  Proof using plain. intros H. destruct (link_form lk t H) as (a & -> & _). eexists. reflexivity. Qed.
  Lemma links_read l : forall ts r fuel, (forall lk p y, In lk l -> lk_link lk <> 0 -> at_ (d_links d) (lk_link lk) = Some (p, y) -> 0 <= p) -> Forall2 (link_annotation d) l ts -> (length l < fuel)%nat ->
    links_at fuel kids (List.concat ts +++ bs "]" +++ r) = Some (map link_value l).
  Proof using fmt_free plain.
    induction l as [|lk l IH]; intros ts r fuel Hq F Hf; inversion F as [|? t ? ts' Ht F' E1 E2]; subst; (destruct fuel as [|fuel]; [cbn [length] in Hf; lia|]).
    - reflexivity.
    - cbn [List.concat map]. rewrite <- app_assoc. destruct (link_opens _ _ Ht) as (t' & Et).
      assert (SW : skip_white (t +++ List.concat ts' +++ bs "]" +++ r) = t +++ List.concat ts' +++ bs "]" +++ r) by (rewrite Et; reflexivity).
      assert (NP : prefixb (bs "]") (t +++ List.concat ts' +++ bs "]" +++ r) = false) by (rewrite Et; reflexivity).
      destruct (link_read lk t (List.concat ts' +++ bs "]" +++ r)) as ((s & HS) & HL & HP); [intros p y; apply Hq; now left|exact Ht|].
      cbn [links_at]. rewrite SW, NP, HP. cbn [bind]. rewrite IH; [|intros q p y Hin; apply Hq; now right|exact F'|cbn [length] in Hf; lia].
      cbn [bind]. rewrite HS. cbn [bind]. rewrite (proj2 (prefixb_spec (bs "Link ") _)) by (eexists; reflexivity). rewrite HL. reflexivity.
  Qed.
  Lemma links_len l ts : Forall2 (link_annotation d) l ts -> (length l <= length (List.concat ts))%nat.
  Proof using plain.
    induction 1 as [|lk t l ts Ht F IH]; [cbn; lia|]. destruct (link_opens _ _ Ht) as (t' & ->). cbn [List.concat length]. rewrite app_length. cbn [length]. lia.
  Qed.
  (** the annotations of a page without attachments *)
  Lemma annots_seek filespec boxes version pg t c r : pg_annots pg = [] -> Forall (fun b => In (fst b) own_boxes) boxes -> page_entries d filespec boxes version pg t ->
    (forall lk p y, In lk (pg_links pg) -> lk_link lk <> 0 -> at_ (d_links d) (lk_link lk) = Some (p, y) -> 0 <= p) ->
    match entry_of (bs "/Annots [") (bs "<</Type /Page" +++ eol +++ bs "/Parent 1 0 R" +++ eol +++ t +++ bs "/Contents " +++ dec c +++ bs " 0 R>>" +++ eol +++ r) with
    | Some r => links_at (length r) kids r | None => Some [] end = Some (map link_value (pg_links pg)).
  Proof using fmt_free plain.
    intros NA HB (an & HA & ->) Hq.
    assert (P : forall s, entry_of (bs "/Annots [") (bs "<</Type /Page" +++ eol +++ bs "/Parent 1 0 R" +++ eol +++ s) = seek (bs "/Annots [") 2 0 false s).
    { intros s. unfold entry_of. rewrite (proj2 (prefixb_spec (bs "<<") _)) by (eexists; reflexivity). sk. reflexivity. }
    rewrite P. clear P. rewrite <- ?app_assoc.
    assert (M : forall s, seek (bs "/Annots [") 2 0 false (media_box (E := E) (pg_size pg) +++ s) = seek (bs "/Annots [") 2 0 false s).
    { intros s. destruct (pg_size pg) as [[w h]|]; [|reflexivity]. unfold media_box, PageSpec.line. sk. reflexivity. }
    rewrite M. clear M.
    assert (B : forall s, seek (bs "/Annots [") 2 0 false (List.concat (map (@page_box E) boxes) +++ s) = seek (bs "/Annots [") 2 0 false s).
    { clear HA. induction boxes as [|[name [[[x y] w] h]] boxes IH]; intros s; [reflexivity|]. inversion HB as [|? ? H1 H2 X]. subst. specialize (IH H2 s).
      cbn [map List.concat]. rewrite <- app_assoc. rewrite <- IH. generalize (List.concat (map (@page_box E) boxes) +++ s). clear IH. intros q. unfold page_box, PageSpec.line. rewrite <- ?app_assoc.
      rewrite (app_assoc (bs "/") name), (app_assoc (bs "/" +++ name) (bs " [")). rewrite <- (app_assoc (bs "/") name (bs " [")). fold (key name).
      cbn [fst] in H1. unfold own_boxes in H1. cbn [In] in H1. clear - H1 fmt_free. repeat (destruct H1 as [<-|H1]; [sk; reflexivity|]). destruct H1. }
    rewrite B. clear B. unfold PageSpec.line. rewrite <- ?app_assoc. do 2 sk1.
    destruct HA as [(NL & _ & ->)|(_ & ls & fs & F1 & F2 & ->)].
    - rewrite NL. cbn [app]. destruct (bltb (bs "1.3") version); sk; reflexivity.
    - rewrite NA in F2. inversion F2. subst fs. unfold PageSpec.line. rewrite <- ?app_assoc. rewrite seek_hit by discriminate. change (List.concat (@nil bytes)) with (@nil Z). cbn [app].
      apply links_read; [exact Hq|exact F1|]. rewrite app_length. pose proof (links_len _ _ F1) as X. rewrite (app_length (bs "]")). change (length (bs "]")) with 1%nat. lia.
  Qed.
End Link.

(** what the caller asked for: the page of the target, or the address *)
Definition link_shown {E : env} (d : doc (e_num E)) (lk : link (e_num E)) : bytes * target :=
  (rect_text lk,
   if lk_link lk =? 0 then Address (lk_uri lk)
   else match at_ (d_links d) (lk_link lk) with Some (p, y) => OnPage p (view_text d p y) | None => Nowhere end).

Lemma position_odd n : forall k i p, k <= p -> (p - k) mod 2 = 0 -> (p - k) / 2 < Z.of_nat n -> position p i (odd_from k n) = Some (i + (p - k) / 2).
Proof.
  induction n as [|n IH]; intros k i p H1 H2 H3; [pose proof (Z.div_pos (p - k) 2); lia|]. cbn [odd_from position].
  destruct (k =? p) eqn:E0; [apply Z.eqb_eq in E0; subst k; rewrite Z.sub_diag; cbn; f_equal; lia|]. apply Z.eqb_neq in E0.
  replace (p - k) with ((p - (k + 2)) + 1 * 2) in * by lia. rewrite Z.mod_add in H2 by lia. rewrite Z.div_add in * by lia.
  rewrite IH; [f_equal; lia| |exact H2|lia]. destruct (Z.eq_dec p (k + 1)) as [->|]; [|lia]. replace (k + 1 - (k + 2)) with (-1) in H2 by lia. discriminate H2.
Qed.

(** A document without attachments and without protection: an independent reader that walks from the end of the file to the pages finds on every
    page the links put there, in order, with their rectangles, and the address or the number of the page each leads to *)
Theorem C96_links_read_back_partial :
  forall (E : env) (d : doc (e_num E)) (pre : bytes),
    well_formed d -> finished d pre -> zlength (file_of d pre) < 10 ^ 10 -> 0 <= d_page d ->
    (forall x, no_delimiter (e_fmt2 E x)) ->
    (forall pg, In pg (d_pages d) -> Forall (fun b => In (fst b) own_boxes) (pg_boxes pg)) ->
    d_protect d = None -> d_docatts d = [] -> (forall pg, In pg (d_pages d) -> pg_annots pg = []) ->
    (forall pg lk p y, In pg (d_pages d) -> In lk (pg_links pg) -> lk_link lk <> 0 -> at_ (d_links d) (lk_link lk) = Some (p, y) -> 1 <= p <= d_page d) ->
    read_links (file_of d pre) = Some (map (fun pg => map (link_shown d) (pg_links pg)) (firstn (Z.to_nat (d_page d)) (d_pages d))).
Proof.
  intros E d pre W F S Hp HF HB PL DA PA0 HL. destruct (enddoc_assembled d pre (well_formed_inputs d W) F) as (os & ps & oa & A).
  destruct (tables d _ _ _ _ _ A S) as (x & offs & enc & rest & Sx & _ & Hl & R & Er & _ & Ex & Hoff & _).
  fold (file_of d pre) in *. set (table := Free 0 65535 :: map (fun o => InUse o 0) offs) in *.
  assert (OB : forall k body, In (obj k body) os -> exists r, object_from (file_of d pre) table k = Some (body +++ bs "endobj" +++ eol +++ r)).
  { intros k body Hin. unfold obj in Hin. destruct (Hoff _ _ Hin) as (off & Hn & Hf).
    assert (Hk : 1 <= k <= w_n (enddoc d (w_init pre))) by (eapply (num_range d); [exact A|]; apply (in_map fst) in Hin; exact Hin).
    eapply (object_from_found _ _ _ off); [|exact Hf]. replace (Z.to_nat k) with (Datatypes.S (Z.to_nat (k - 1))) by lia. exact (map_nth_error (fun o => InUse o 0) _ _ Hn). }
  destruct (as_pages _ _ _ _ _ _ A) as ((tab & PA) & Hp1). destruct (as_dpage _ _ _ _ _ _ A) as [Hle _].
  assert (Hps0 : ps = []).
  { destruct (as_att _ _ _ _ _ _ A) as (_ & _ & HU & _). destruct ps as [|q ps]; [reflexivity|exfalso]. destruct (proj1 (HU q) (or_introl eq_refl)) as [Hin _].
    unfold used_atts in Hin. rewrite DA in Hin. cbn [app] in Hin. apply in_concat in Hin as (l & Hl1 & Hl2). apply in_map_iff in Hl1 as (pg & <- & Hpg). rewrite (PA0 pg Hpg) in Hl2. exact Hl2. }
  assert (Hlen : length (doc_pages d) = Z.to_nat (d_page d)) by (unfold doc_pages; apply firstn_length_le; unfold zlen in Hle; lia).
  destruct (as_outl _ _ _ _ _ _ A) as (no & _ & tc & Hc & _).
  pose proof (as_n _ _ _ _ _ _ A) as Hn.
  unfold read_links. rewrite (table_offset_of _ x Sx) by (rewrite Ex; apply zlen_nonneg). cbn [bind]. rewrite R. cbn [bind fst snd].
  rewrite Er. change nl with eol. rewrite (app_assoc (bs "trailer") eol), strip_app. cbn [bind].
  unfold trailer_text. change nl with eol. rewrite entry_of_start. rewrite <- ?app_assoc.
  set (n := w_n (enddoc d (w_init pre))) in *. clearbody n.
  do 5 sk1. rewrite seek_hit by discriminate. cbn [bind]. rewrite reference_dec by lia. cbn [bind fst].
  destruct (OB _ _ Hc) as (r1 & ->). cbn [bind]. rewrite <- ?app_assoc. rewrite entry_of_start. change nl with eol.
  do 4 sk1. change (bs "/Pages 1 0 R") with (bs "/Pages " +++ dec 1 +++ bs " 0 R"). rewrite <- ?app_assoc. rewrite seek_hit by discriminate. cbn [bind].
  rewrite reference_dec by lia. cbn [bind fst].
  destruct (OB _ _ Hp1) as (r2 & Etree). rewrite Etree. cbn [bind].
  rewrite Hps0 in *. clear Hps0. change (3 + 2 * zlen (@nil Z)) with 3 in *.
  set (ks := odd_from 3 (length (doc_pages d))) in *.
  unfold pages_body. rewrite <- ?app_assoc. change nl with eol.
  change (bs "<</Type /Pages") with (bs "<<" +++ bs "/Type /Pages"). rewrite <- ?app_assoc. rewrite entry_of_start. do 3 sk1. rewrite seek_hit by discriminate. cbn [bind].
  unfold kids_text.
  assert (Fk : Forall (fun k => 0 <= k) ks).
  { apply Forall_forall. intros k Hk. apply In_nth_error in Hk as (i & Hi). assert (Hi' : (i < length (doc_pages d))%nat).
    { unfold ks in Hi. rewrite <- (odd_from_len 3 (length (doc_pages d))). apply nth_error_Some. congruence. }
    unfold ks in Hi. rewrite odd_from_nth in Hi by exact Hi'. injection Hi as <-. lia. }
  rewrite references_kids; [|exact Fk|]. 2:{ rewrite app_length. pose proof (concat_refs_length ks) as X. cbn beta in X. rewrite (app_length (bs "]")). change (length (bs "]")) with 1%nat. lia. }
  cbn [bind]. apply all_nth; [rewrite map_length; unfold ks; rewrite odd_from_len; reflexivity|].
  intros i k y Hi Hy. fold (doc_pages d) in Hy.
  assert (Hi' : (i < length (doc_pages d))%nat). { rewrite <- (map_length (fun pg => map (link_shown d) (pg_links pg))). apply nth_error_Some. congruence. }
  destruct (nth_error (doc_pages d) i) as [pg|] eqn:Epg; [|apply nth_error_None in Epg; lia].
  rewrite (map_nth_error _ _ _ Epg) in Hy. injection Hy as <-. unfold ks in Hi. rewrite odd_from_nth in Hi by exact Hi'. injection Hi as <-.
  destruct (PA i pg Epg) as (a & o & c & Eo & t & body & -> & _ & _ & PE & Eb).
  assert (Hpg : In pg (d_pages d)).
  { apply nth_error_In in Epg. unfold doc_pages in Epg. rewrite <- (firstn_skipn (Z.to_nat (d_page d)) (d_pages d)). apply in_or_app. now left. }
  assert (LV : map (link_value d ks) (pg_links pg) = map (link_shown d) (pg_links pg)).
  { apply map_ext_in. intros lk Hlk. unfold link_value, link_shown. destruct (lk_link lk =? 0) eqn:E0; [reflexivity|]. apply Z.eqb_neq in E0.
    destruct (at_ (d_links d) (lk_link lk)) as [[p y]|] eqn:El; [|reflexivity]. pose proof (HL pg lk p y Hpg Hlk E0 El) as Hr.
    unfold ks. replace (1 + 2 * p - 3) with ((p - 1) * 2) by lia.
    rewrite position_odd; replace (1 + 2 * p - 3) with ((p - 1) * 2) by lia; rewrite ?Z.mod_mul, ?Z.div_mul by lia; [|lia|reflexivity|lia].
    replace (1 + (p - 1)) with p by lia. reflexivity. }
  rewrite <- LV. clear LV.
  set (k := 3 + 2 * Z.of_nat i) in *. clearbody k.
  unfold page_links. edestruct (OB k) as (r3 & E3); [rewrite Eo; apply in_or_app; right; left; reflexivity|]. rewrite E3. clear E3.
  cbn [bind]. rewrite <- ?app_assoc. change nl with eol.
  pose proof (wf_order d W 3 _ (pg_boxes pg)) as PP.
  assert (OW' : Forall (fun b => In (fst b) own_boxes) (e_shuffle E 3 _ (pg_boxes pg))) by (eapply Permutation_Forall; [apply Permutation_sym, PP|exact (HB pg Hpg)]).
  eapply (annots_seek d ks HF PL _ _ (version2 d) pg t (k + 1)); [exact (PA0 pg Hpg)|exact OW'|exact (PE I)|].
  intros lk p y Hlk E0 El. pose proof (HL pg lk p y Hpg Hlk E0 El). lia.
Qed.
Print Assumptions C96_links_read_back_partial.

(** Three pages: an address the text of which looks like the end of the annotations, a link to page 3, a link back to page 1 *)
Definition doc96 (docatts : list Z) : doc Z :=
  doc0 [page0 (bs "a") [{| lk_x := 10; lk_y := 90; lk_w := 20; lk_h := 5; lk_link := 0; lk_uri := bs ")>>]/A (x" |};
                        {| lk_x := 11; lk_y := 80; lk_w := 20; lk_h := 5; lk_link := 1; lk_uri := [] |}];
        page0 (bs "b") []; page0 (bs "c") [{| lk_x := 1; lk_y := 2; lk_w := 3; lk_h := 4; lk_link := 2; lk_uri := [] |}]]
    3 [att90] docatts [(0, 0); (3, 7); (1, 9)] [] None.
Definition links96 (i j : Z) : list (list (bytes * target)) :=
  [[(bs "10.00 90.00 30.00 85.00", Address (bs ")>>]/A (x")); (bs "11.00 80.00 31.00 75.00", OnPage i (bs " /XYZ 0 290.00 null"))]; [];
   [(bs "1.00 2.00 4.00 -2.00", OnPage j (bs " /XYZ 0 288.00 null"))]].
Example C96_ex : finished (E := env0) (doc96 []) [] /\ read_links (file_of (E := env0) (doc96 []) []) = Some (links96 3 1).
Proof. split; [split; vm_compute; reflexivity|vm_compute; reflexivity]. Qed.
Lemma targets96 : forall pg (lk : link Z) p y, In pg (d_pages (doc96 [])) -> In lk (pg_links pg) -> lk_link lk <> 0 -> at_ (d_links (doc96 [])) (lk_link lk) = Some (p, y) -> 1 <= p <= 3.
Proof.
  intros pg lk p y Hpg Hlk H0 Hl. change (d_links (doc96 [])) with [(0, 0); (3, 7); (1, 9)] in Hl. clear - Hl H0.
  unfold at_ in Hl. destruct (lk_link lk <? 0) eqn:L; [discriminate Hl|]. apply Z.ltb_ge in L.
  destruct (Z.to_nat (lk_link lk)) as [|[|[|n]]] eqn:T; [lia|injection Hl as <- <-; lia|injection Hl as <- <-; lia|destruct n; discriminate Hl].
Qed.
Example C96_ex_thm : read_links (file_of (E := env0) (doc96 []) []) = Some (map (fun pg => map (link_shown (E := env0) (doc96 [])) (pg_links pg)) (d_pages (doc96 []))).
Proof.
  apply (C96_links_read_back_partial env0 (doc96 []) []).
  - apply doc0_wf.
  - exact (proj1 C96_ex).
  - vm_compute. reflexivity.
  - discriminate.
  - exact env0_free.
  - intros pg [<-|[<-|[<-|[]]]]; constructor.
  - reflexivity.
  - reflexivity.
  - intros pg [<-|[<-|[<-|[]]]]; reflexivity.
  - exact targets96.
Qed.

(** With one attachment the pages have other numbers: the link to page 3 leads to page 2, and the link to page 1 to no page *)
Theorem C96_links_refuted :
  ~ (forall (E : env) (d : doc (e_num E)) (pre : bytes),
      well_formed d -> finished d pre -> zlength (file_of d pre) < 10 ^ 10 -> 0 <= d_page d ->
      (forall x, no_delimiter (e_fmt2 E x)) ->
      (forall pg, In pg (d_pages d) -> Forall (fun b => In (fst b) own_boxes) (pg_boxes pg)) ->
      d_protect d = None -> (forall pg, In pg (d_pages d) -> pg_annots pg = []) ->
      (forall pg lk p y, In pg (d_pages d) -> In lk (pg_links pg) -> lk_link lk <> 0 -> at_ (d_links d) (lk_link lk) = Some (p, y) -> 1 <= p <= d_page d) ->
      read_links (file_of d pre) = Some (map (fun pg => map (link_shown d) (pg_links pg)) (firstn (Z.to_nat (d_page d)) (d_pages d)))).
Proof.
  intros H. specialize (H env0 (doc96 [0]) [] (doc0_wf _ _ _ _ _ _ _)).
  match type of H with ?a -> ?b -> ?c -> ?e -> ?f -> ?g -> ?h -> ?i -> ?j => assert (X : j) end.
  { apply H; clear H.
    - split; vm_compute; reflexivity.
    - vm_compute. reflexivity.
    - discriminate.
    - exact env0_free.
    - intros pg [<-|[<-|[<-|[]]]]; constructor.
    - reflexivity.
    - intros pg [<-|[<-|[<-|[]]]]; reflexivity.
    - exact targets96. }
  clear H. vm_compute in X. discriminate X.
Qed.
Print Assumptions C96_links_refuted.
