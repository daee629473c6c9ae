(** What a piece of basic HTML is, without reference to the code. *)
From Verif Require Import Base.
From Coq Require Import String.
Open Scope Z_scope.

Definition lt_ : Z := 60.     (* the left angle bracket *)
Definition gt_ : Z := 62.     (* the right angle bracket *)
Definition space : Z := 32.

(** line feeds are spaces and carriage returns are nothing *)
Definition clean (s : bytes) : bytes :=
  flat_map (fun c => if c =? 10 then [space] else if c =? 13 then [] else [c]) s.

(** A string is cut into text and tags from the left: a tag goes from the first
    left bracket that has a right bracket after it to the nearest such. *)
Inductive piece := Text (t : bytes) | Tag (body : bytes).
Definition written (p : piece) : bytes := match p with Text t => t | Tag b => lt_ :: b ++ [gt_] end.
Inductive cut : bytes -> list piece -> Prop :=
| cut_end s : (forall a b c, s <> a ++ [lt_] ++ b ++ [gt_] ++ c) -> cut s [Text s]
| cut_tag t body r ps : ~ In lt_ t -> ~ In gt_ body -> cut r ps -> cut (t ++ [lt_] ++ body ++ [gt_] ++ r) (Text t :: Tag body :: ps).

(** A tag written with attributes, each with double quotes, single quotes or none. *)
Record attribute := { a_key : bytes; a_quote : bytes; a_val : bytes }.
Definition tag_text (name : bytes) (attrs : list attribute) : bytes :=
  name ++ flat_map (fun a => [space] ++ a_key a ++ [61] ++ a_quote a ++ a_val a ++ a_quote a) attrs.
Definition quote_ok (q : bytes) : Prop := q = [] \/ q = [34] \/ q = [39].
(** the value an attribute list gives to a key: the last one counts *)
Fixpoint value_of (lower : bytes -> bytes) (k : bytes) (attrs : list attribute) : option bytes :=
  match attrs with
  | [] => None
  | a :: r => match value_of lower k r with Some v => Some v | None => if beqb (lower (a_key a)) k then Some (a_val a) else None end
  end.

(** attributes that can be read back one by one: no spaces, keys without an equal
    sign, values without quotes, neither of them empty *)
Definition plain (name : bytes) (attrs : list attribute) : Prop :=
  ~ In space name /\ Forall (fun a => a_key a <> [] /\ a_val a <> [] /\ quote_ok (a_quote a) /\                   ~ In space (a_key a) /\ ~ In space (a_val a) /\ ~ In 61 (a_key a) /\ ~ In 34 (a_val a) /\ ~ In 39 (a_val a)) attrs.
(** the name of a tag: up to the first space *)
Fixpoint first_word (b : bytes) : bytes := match b with [] => [] | x :: r => if x =? space then [] else x :: first_word r end.

(** Levels: open tags less close tags. *)
Inductive token := TText (s : bytes) | TOpen (name : bytes) (attr : list (bytes * bytes)) | TClose (name : bytes).
(** the token for a piece; the attributes are determined when they are plain *)
Inductive token_of (lower : bytes -> bytes) : piece -> token -> Prop :=
| tk_text t : token_of lower (Text t) (TText t)
| tk_close n : token_of lower (Tag (47 :: n)) (TClose (lower n))
| tk_open b m : (forall n, b <> 47 :: n) ->
    (forall name attrs, plain name attrs -> b = tag_text name attrs -> forall k, option_map snd (find (fun e => beqb (fst e) k) m) = value_of lower k attrs) ->
    token_of lower (Tag b) (TOpen (lower (first_word b)) m).
Definition nonempty (p : piece) : bool := match p with Text [] => false | _ => true end.

Definition level (name : bytes) (ts : list token) : Z :=
  fold_right (fun t n => n + match t with
    | TOpen s _ => if beqb s name then 1 else 0
    | TClose s => if beqb s name then -1 else 0
    | TText _ => 0 end) 0 ts.
(** a style as a string of letters, from the three levels *)
Definition style (b i u : Z) : bytes :=
  (if 0 <? b then bs "B" else []) ++ (if 0 <? i then bs "I" else []) ++ (if 0 <? u then bs "U" else []).
(** the tags that change the style *)
Definition styling (t : token) : bool :=
  match t with TOpen s _ | TClose s => beqb s (bs "b") || beqb s (bs "i") || beqb s (bs "u") | TText _ => false end.

(** ** What is drawn: each text with its style, color, link and alignment *)
Inductive call :=
| SetFontStyle (st : bytes)                     (* SetFont with no family and no size *)
| SetColor (r g b : Z)                          (* SetTextColor *)
| WriteText (s : bytes)                         (* Write *)
| WriteLink (s url : bytes)                     (* WriteLinkString *)
| WriteAlign (s align : bytes)                  (* WriteAligned with width 0 *)
| NewLine.                                      (* Ln *)
Record shown := { sh_style : bytes; sh_color : Z * Z * Z; sh_text : bytes; sh_url : option bytes; sh_align : option bytes }.
(** the style and color in effect are those last set *)
Fixpoint effect (st : bytes) (col : Z * Z * Z) (cs : list call) : list shown * (bytes * (Z * Z * Z)) :=
  match cs with
  | [] => ([], (st, col))
  | SetFontStyle s :: r => effect s col r
  | SetColor x y z :: r => effect st (x, y, z) r
  | WriteText s :: r => let '(l, f) := effect st col r in ({| sh_style := st; sh_color := col; sh_text := s; sh_url := None; sh_align := None |} :: l, f)
  | WriteLink s u :: r => let '(l, f) := effect st col r in ({| sh_style := st; sh_color := col; sh_text := s; sh_url := Some u; sh_align := None |} :: l, f)
  | WriteAlign s a :: r => let '(l, f) := effect st col r in ({| sh_style := st; sh_color := col; sh_text := s; sh_url := None; sh_align := Some a |} :: l, f)
  | NewLine :: r => effect st col r
  end.

(** How a text is to be drawn, from the tokens before it. *)
Record link := { l_r : Z; l_g : Z; l_b : Z; l_bold : bool; l_italic : bool; l_under : bool }.
Definition one (b : bool) : Z := if b then 1 else 0.
(** the address of the last anchor opened since the last text *)
Fixpoint pending (href : bytes) (ts : list token) : bytes :=
  match ts with
  | [] => href
  | TText _ :: r => pending [] r
  | TOpen s a :: r => pending (if beqb s (bs "a") then match find (fun e => beqb (fst e) (bs "href")) a with Some e => snd e | None => [] end else href) r
  | TClose _ :: r => pending href r
  end.
Fixpoint aligned (al : bytes) (ts : list token) : bytes :=
  match ts with
  | [] => al
  | TOpen s _ :: r => aligned (if beqb s (bs "center") then bs "C" else if beqb s (bs "right") then bs "R" else if beqb s (bs "left") then bs "L" else al) r
  | TClose s :: r => aligned (if beqb s (bs "center") || beqb s (bs "right") then bs "L" else al) r
  | TText _ :: r => aligned al r
  end.
(** has the style been set by the tokens before, by a style tag or a link text? *)
Fixpoint touched (href : bytes) (ts : list token) : bool :=
  match ts with
  | [] => false
  | t :: r => styling t || (match t with TText _ => negb (beqb href []) | _ => false end) || touched (pending href [t]) r
  end.
Definition drawn (lk : link) (st0 : bytes) (col0 : Z * Z * Z) (before : list token) (s : bytes) : shown :=
  let b := level (bs "b") before in let i := level (bs "i") before in let u := level (bs "u") before in
  let href := pending [] before in
  if beqb href [] then
    {| sh_style := if touched [] before then style b i u else st0;
       sh_color := col0; sh_text := s; sh_url := None;
       sh_align := if beqb (aligned (bs "L") before) (bs "L") then None else Some (aligned (bs "L") before) |}
  else
    {| sh_style := style (b + one (l_bold lk)) (i + one (l_italic lk)) (u + one (l_under lk));
       sh_color := (l_r lk, l_g lk, l_b lk); sh_text := s; sh_url := Some href; sh_align := None |}.
(** all texts of a token list, each from the tokens before it *)
Fixpoint expected (lk : link) (st0 : bytes) (col0 : Z * Z * Z) (before ts : list token) : list shown :=
  match ts with
  | [] => []
  | TText s :: r => drawn lk st0 col0 before s :: expected lk st0 col0 (before ++ [TText s]) r
  | t :: r => expected lk st0 col0 (before ++ [t]) r
  end.
