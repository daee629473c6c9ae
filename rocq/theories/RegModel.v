(** fpdf.go: registering fonts (AddFont, AddUTF8Font, AddFontFromBytes, AddUTF8FontFromBytes, AddFontFromReader) and, as far
    as it registers core fonts, SetFont.

    Parameters: [parse], json.Unmarshal into a fontDefType; [ident], generateFontID (def.go:718-724), which clears the file
    name first; [utf], what the definition of a UTF-8 font under a key
    takes from utf8FontFile.parseFile, or its error (TtfModel.v has the reader itself; a panic
    there is not modelled here); [disk], what os.Stat and ioutil.ReadFile, or os.Open, find under a path; [join], path.Join.
    [B]: the rest of a definition (name, descriptor, metrics, widths, subset).  A Go map is a function to option.
    strings.ToLower and ToUpper act on ASCII only. *)
From Verif Require Import Base.
From Coq Require Import String.
Open Scope Z_scope.
Notation length := List.length.

(** strings.ToUpper and strings.ToLower on ASCII *)
Definition up (s : bytes) : bytes := List.map (fun c => if (97 <=? c) && (c <=? 122) then c - 32 else c) s.
Definition low (s : bytes) : bytes := List.map (fun c => if (65 <=? c) && (c <=? 90) then c + 32 else c) s.
(** util.go:458-462 [fontFamilyEscape] *)
Definition fam_esc (s : bytes) : bytes := replace_all (bs " ") (bs "#20") s.
(** fpdf.go:1935-1942 [getFontKey] *)
Definition font_key (fam sty : bytes) : bytes := let s := up sty in low fam ++ (if beqb s (bs "IB") then bs "BI" else s).

Section Reg.
  Context {B : Type}.
  (** def.go:699-716 [fontDefType] *)
  Record def := { d_tp : bytes; d_file : bytes; d_diff : bytes; d_diffn : Z; d_orig : Z; d_size1 : Z; d_size2 : Z; d_id : bytes; d_body : B }.
  (** def.go:264-270 [fontFileType]; [i_n], the object number, is set on output only *)
  Record ffile := { i_len1 : Z; i_len2 : Z; i_emb : bool; i_data : bytes; i_utf8 : bool }.
  (** a result of reading: the bytes, or an error message *)
  Definition got := (bytes + bytes)%type.
  Record st := { s_err : option bytes; s_fonts : bytes -> option def; s_files : bytes -> option ffile; s_diffs : list bytes;
                 s_dir : bytes; s_loader : option (bytes -> option got); s_fam : bytes; s_sty : bytes; s_cur : option def }.
  Record env := { parse : bytes -> def + bytes; ident : def -> bytes + bytes; utf : bytes -> bytes -> B + bytes; disk : bytes -> got; join : bytes -> bytes -> bytes;
                  core : bytes -> bytes -> got }.
  Variable e : env.

  (** the state of a new document fpdf.go:60-137; [dir]: the font directory *)
  Definition new (dir : bytes) : st :=
    {| s_err := None; s_fonts := fun _ => None; s_files := fun _ => None; s_diffs := []; s_dir := dir; s_loader := None; s_fam := []; s_sty := []; s_cur := None |}.

  Definition put {V} (m : bytes -> option V) (k : bytes) (v : V) : bytes -> option V := fun x => if beqb x k then Some v else m x.
  Definition with_err (x : bytes) (s : st) : st :=
    {| s_err := Some x; s_fonts := s_fonts s; s_files := s_files s; s_diffs := s_diffs s; s_dir := s_dir s; s_loader := s_loader s; s_fam := s_fam s; s_sty := s_sty s; s_cur := s_cur s |}.
  Definition with_reg (fo : bytes -> option def) (fi : bytes -> option ffile) (di : list bytes) (s : st) : st :=
    {| s_err := s_err s; s_fonts := fo; s_files := fi; s_diffs := di; s_dir := s_dir s; s_loader := s_loader s; s_fam := s_fam s; s_sty := s_sty s; s_cur := s_cur s |}.
  (** fpdf.go:284-288 [SetError] *)
  Definition set_error (x : bytes) (s : st) : st := match s_err s with None => with_err x s | Some _ => s end.

  (** the search for an encoding, fpdf.go:1897-1902 and 1967-1972: the place, counted from 1 *)
  Fixpoint find_diff (x : bytes) (l : list bytes) (n : Z) : option Z :=
    match l with [] => None | y :: l => if beqb y x then Some n else find_diff x l (n + 1) end.
  Definition set_diffn (n : Z) (d : def) : def :=
    {| d_tp := d_tp d; d_file := d_file d; d_diff := d_diff d; d_diffn := n; d_orig := d_orig d; d_size1 := d_size1 d; d_size2 := d_size2 d; d_id := d_id d; d_body := d_body d |}.
  Definition set_id (i : bytes) (d : def) : def :=
    {| d_tp := d_tp d; d_file := d_file d; d_diff := d_diff d; d_diffn := d_diffn d; d_orig := d_orig d; d_size1 := d_size1 d; d_size2 := d_size2 d; d_id := i; d_body := d_body d |}.
  Definition no_file (d : def) : def :=
    {| d_tp := d_tp d; d_file := []; d_diff := d_diff d; d_diffn := d_diffn d; d_orig := d_orig d; d_size1 := d_size1 d; d_size2 := d_size2 d; d_id := []; d_body := d_body d |}.

  (** fpdf.go:1893-1910 and 1964-1978: the encodings, and the definition with its number *)
  Definition with_diff (d : def) (l : list bytes) : def * list bytes :=
    match d_diff d with
    | [] => (d, l)
    | _ => match find_diff (d_diff d) l 1 with
           | Some n => (set_diffn n d, l)
           | None => (set_diffn (Z.of_nat (length l) + 1) d, l ++ [d_diff d])
           end
    end.
  (** fpdf.go:1912-1928 and 1980-1987: the entry of the font file; [z]: the contents, when they are given *)
  Definition with_file (d : def) (z : option bytes) (m : bytes -> option ffile) : bytes -> option ffile :=
    match d_file d with
    | [] => m
    | _ =>
        let emb := match z with Some _ => true | None => false end in
        let data := match z with Some b => b | None => [] end in
        if beqb (d_tp d) (bs "TrueType") then put m (d_file d) {| i_len1 := d_orig d; i_len2 := 0; i_emb := emb; i_data := data; i_utf8 := false |}
        else put m (d_file d) {| i_len1 := d_size1 d; i_len2 := d_size2 d; i_emb := emb; i_data := data; i_utf8 := false |}
    end.
  (** the end of addFontFromBytes fpdf.go:1893-1930 and of AddFontFromReader fpdf.go:1964-1988 *)
  Definition register (key : bytes) (d : def) (z : option bytes) (s : st) : st :=
    let '(d, l) := with_diff d (s_diffs s) in
    with_reg (put (s_fonts s) key d) (with_file d z (s_files s)) l s.

  (** fpdf.go:3559-3581 [loadfont], after the reading *)
  Definition load (b : bytes) : def + bytes :=
    match parse e b with
    | inr x => inr x
    | inl d => match ident e (no_file d) with inl i => inl (set_id i d) | inr x => inr x end
    end.

  (** fpdf.go:1947-1990 [AddFontFromReader]; [r]: what the reader gives *)
  Definition add_reader (fam sty : bytes) (r : got) (s : st) : st :=
    match s_err s with Some _ => s | None =>
    let key := font_key (fam_esc fam) sty in
    match s_fonts s key with Some _ => s | None =>
    match r with
    | inr x => with_err x s
    | inl b => match load b with inr x => with_err x s | inl d => register key d None s end
    end end end.

  (** the definition of a UTF-8 font fpdf.go:1704-1738 and 1844-1873; generateFontID's error is ignored, its text then holds the sum of nothing *)
  Definition utf_def (b : B) (file : bytes) : def :=
    let d := {| d_tp := bs "UTF8"; d_file := file; d_diff := []; d_diffn := 0; d_orig := 0; d_size1 := 0; d_size2 := 0; d_id := []; d_body := b |} in
    match ident e (no_file d) with inl i => set_id i d | inr _ => d end.

  (** fpdf.go:1671-1768 [addFont]; [fam] has been escaped *)
  Definition add_font (fam sty file : bytes) (utf8 : bool) (s : st) : st :=
    let file := match file with [] => replace_all (bs " ") [] fam ++ low sty ++ (if utf8 then bs ".ttf" else bs ".json") | _ => file end in
    if utf8 then
      let key := font_key fam sty in
      match s_fonts s key with Some _ => s | None =>
      let file := join e (s_dir s) file in
      match disk e file with
      | inr x => set_error x s
      | inl b =>
          match utf e key b with
          | inr x => set_error x s
          | inl m =>
              with_reg (put (s_fonts s) key (utf_def m file))
                (put (put (s_files s) key {| i_len1 := Z.of_nat (length b); i_len2 := 0; i_emb := false; i_data := []; i_utf8 := true |})
                     file {| i_len1 := 0; i_len2 := 0; i_emb := false; i_data := []; i_utf8 := true |})
                (s_diffs s) s
          end
      end end
    else
      let from_disk := let file := join e (s_dir s) file in match disk e file with inr x => with_err x s | inl b => add_reader fam sty (inl b) s end in
      match s_loader s with
      | None => from_disk
      | Some ld => match ld file with Some r => add_reader fam sty r s | None => from_disk end
      end.

  (** fpdf.go:1816-1932 [addFontFromBytes]; [fam] has been escaped; [utf8]: nil or the bytes *)
  Definition add_bytes (fam sty : bytes) (json z : bytes) (utf8 : option bytes) (s : st) : st :=
    match s_err s with Some _ => s | None =>
    let key := font_key fam sty in
    match s_fonts s key with Some _ => s | None =>
    match utf8 with
    | Some b =>
        match utf e key b with
        | inr _ => s                  (* the message goes to the standard output *)
        | inl m => with_reg (put (s_fonts s) key (utf_def m [])) (s_files s) (s_diffs s) s
        end
    | None => match load json with inr x => with_err x s | inl d => register key d (Some z) s end
    end end end.

  Definition drop (c : Z) (b : bytes) : bytes := filter (fun d => negb (d =? c)) b.
  (** fpdf.go:116-122 *)
  Definition core_names : list bytes := [bs "courier"; bs "helvetica"; bs "times"; bs "symbol"; bs "zapfdingbats"].
  Definition select (fam sty key : bytes) (s : st) : st :=
    {| s_err := s_err s; s_fonts := s_fonts s; s_files := s_files s; s_diffs := s_diffs s; s_dir := s_dir s; s_loader := s_loader s;
       s_fam := fam; s_sty := sty; s_cur := s_fonts s key |}.
  (** fpdf.go:2031-2108 [SetFont]: the font selected (the size, the flags and the page are in ApiModel.v) *)
  Definition set_font (fam sty : bytes) (s : st) : st :=
    match s_err s with Some _ => s | None =>
    let fam := fam_esc fam in
    let fam := match fam with [] => s_fam s | _ => low fam end in
    let sty := drop 83 (drop 85 (up sty)) in
    let sty := if beqb sty (bs "IB") then bs "BI" else sty in
    match s_fonts s (fam ++ sty) with
    | Some _ => select fam sty (fam ++ sty) s
    | None =>
        let fam := if beqb fam (bs "arial") then bs "helvetica" else fam in
        if existsb (beqb fam) core_names then
          let fam := if beqb fam (bs "symbol") then bs "zapfdingbats" else fam in
          let sty := if beqb fam (bs "zapfdingbats") then [] else sty in
          match s_fonts s (fam ++ sty) with
          | Some _ => select fam sty (fam ++ sty) s
          | None =>
              match core e fam sty with
              | inr x => with_err x s
              | inl b =>
                  let s := add_reader fam sty (inl b) s in
                  match s_err s with Some _ => s | None => select fam sty (fam ++ sty) s end
              end
          end
        else with_err (bs "undefined font") s
    end end.

  (** the calls *)
  Inductive call :=
  | AddFont (fam sty file : bytes)                       (* fpdf.go:1643-1645 *)
  | AddUTF8Font (fam sty file : bytes)                   (* fpdf.go:1667-1669 *)
  | AddFontFromBytes (fam sty json z : bytes)            (* fpdf.go:1793-1795 *)
  | AddUTF8FontFromBytes (fam sty : bytes) (b : option bytes)   (* fpdf.go:1812-1814 *)
  | AddFontFromReader (fam sty : bytes) (r : got)        (* fpdf.go:1947-1990 *)
  | SetFont (fam sty : bytes)                            (* fpdf.go:2031-2108 *)
  | SetFontLocation (dir : bytes)                        (* fpdf.go:415-417 *)
  | SetFontLoader (ld : option (bytes -> option got))    (* fpdf.go:424-426 *)
  | SetError (x : bytes).                                (* fpdf.go:284-288 *)
  Definition step (c : call) (s : st) : st :=
    match c with
    | AddFont fam sty file => add_font (fam_esc fam) sty file false s
    | AddUTF8Font fam sty file => add_font (fam_esc fam) sty file true s
    | AddFontFromBytes fam sty json z => add_bytes (fam_esc fam) sty json z None s
    | AddUTF8FontFromBytes fam sty b => add_bytes (fam_esc fam) sty [] [] b s
    | AddFontFromReader fam sty r => add_reader fam sty r s
    | SetFont fam sty => set_font fam sty s
    | SetFontLocation d => {| s_err := s_err s; s_fonts := s_fonts s; s_files := s_files s; s_diffs := s_diffs s; s_dir := d; s_loader := s_loader s; s_fam := s_fam s; s_sty := s_sty s; s_cur := s_cur s |}
    | SetFontLoader l => {| s_err := s_err s; s_fonts := s_fonts s; s_files := s_files s; s_diffs := s_diffs s; s_dir := s_dir s; s_loader := l; s_fam := s_fam s; s_sty := s_sty s; s_cur := s_cur s |}
    | SetError x => set_error x s
    end.
  Definition run (cs : list call) (s : st) : st := fold_left (fun s c => step c s) cs s.
  (** fpdf.go:1997-2002 [GetFontDesc] with a family: the definition looked up *)
  Definition get_font (fam sty : bytes) (s : st) : option def := s_fonts s (font_key (fam_esc fam) sty).
End Reg.
Arguments def : clear implicits.
Arguments st : clear implicits.
Arguments env : clear implicits.
