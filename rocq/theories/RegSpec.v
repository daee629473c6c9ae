(** What registering a font must do. *)
From Verif Require Import Base RegModel.
From Coq Require Import String.
Open Scope Z_scope.
Notation length := List.length.

(** ** Faces: family names in any case, styles as B and I in any order and case *)
Definition lc (c : Z) : Z := if (65 <=? c) && (c <=? 90) then c + 32 else c.
Definition same_name (f g : bytes) : Prop := map lc f = map lc g.
Definition letter (c d : Z) : bool := lc c =? d.
Definition bold (s : bytes) : bool := existsb (fun c => letter c 98) s.
Definition italic (s : bytes) : bool := existsb (fun c => letter c 105) s.
(** the empty string, B, I, BI or IB *)
Definition is_style (s : bytes) : Prop := In (map lc s) [[]; [98]; [105]; [98; 105]; [105; 98]].
Definition same_face (f s g t : bytes) : Prop := same_name f g /\ bold s = bold t /\ italic s = italic t.

Section Spec.
  Context {B : Type} (e : env B).
  (** the name of the file an AddFont without one reads: the family without spaces, then the style in lower case *)
  Definition default_name (fam sty : bytes) : bytes := filter (fun c => negb (c =? 32)) fam ++ map lc sty ++ bs ".json".
  (** the call reads the JSON definition [b] for family [fam] and style [sty]; [z]: the font file itself, if it is given.
      A font loader that opens the file comes before the font directory. *)
  Inductive defines (dir : bytes) (ld : option (bytes -> option got)) : call -> bytes -> bytes -> bytes -> option bytes -> Prop :=
  | def_bytes fam sty json z : defines dir ld (AddFontFromBytes fam sty json z) fam sty json (Some z)
  | def_reader fam sty json : defines dir ld (AddFontFromReader fam sty (inl json)) fam sty json None
  | def_loader fam sty file json l : file <> [] -> ld = Some l -> l file = Some (inl json) -> defines dir ld (AddFont fam sty file) fam sty json None
  | def_disk fam sty file json : file <> [] -> (forall l, ld = Some l -> l file = None) -> disk e (join e dir file) = inl json ->
      defines dir ld (AddFont fam sty file) fam sty json None
  | def_default fam sty json : ~ In 32 fam -> (forall l, ld = Some l -> l (default_name fam sty) = None) -> disk e (join e dir (default_name fam sty)) = inl json ->
      defines dir ld (AddFont fam sty []) fam sty json None.
  (** the call reads the UTF-8 font [b], from a file or as given *)
  Inductive reads_utf8 (dir : bytes) : call -> bytes -> bytes -> bytes -> bytes -> Prop :=
  | utf_disk fam sty file b : file <> [] -> disk e (join e dir file) = inl b -> reads_utf8 dir (AddUTF8Font fam sty file) fam sty b (join e dir file)
  | utf_bytes fam sty b : reads_utf8 dir (AddUTF8FontFromBytes fam sty (Some b)) fam sty b [].
  (** the definition in the document is the one that was read; the identifier and the number of the encoding are the library's *)
  Definition same_font (d0 d : def B) : Prop :=
    d_tp d = d_tp d0 /\ d_file d = d_file d0 /\ d_diff d = d_diff d0 /\ d_orig d = d_orig d0 /\ d_size1 d = d_size1 d0 /\ d_size2 d = d_size2 d0 /\
    d_body d = d_body d0 /\ ident e (no_file d0) = inl (d_id d).
  (** the encoding of a font is the one its number names, counted from 1 *)
  Definition own_encoding (l : list bytes) (d : def B) : Prop := d_diff d <> [] -> 1 <= d_diffn d /\ nth_error l (Z.to_nat (d_diffn d - 1)) = Some (d_diff d).
  (** the embedded font file: a TrueType font has one length, a Type1 font two *)
  Definition own_file (d : def B) (z : option bytes) (i : ffile) : Prop :=
    i_utf8 i = false /\
    (d_tp d = bs "TrueType" -> i_len1 i = d_orig d /\ i_len2 i = 0) /\
    (d_tp d <> bs "TrueType" -> i_len1 i = d_size1 d /\ i_len2 i = d_size2 d) /\
    match z with Some b => i_emb i = true /\ i_data i = b | None => i_emb i = false end.
  Definition adds (c : call) : option (bytes * bytes) :=
    match c with
    | AddFont f s _ | AddUTF8Font f s _ | AddFontFromBytes f s _ _ | AddUTF8FontFromBytes f s _ | AddFontFromReader f s _ => Some (f, s)
    | _ => None
    end.
End Spec.
