(** htmlbasic.go.  [strings.ToLower] is a parameter.  The two regular
    expressions are implemented by the matching rules of package regexp:
    leftmost match, ungreedy star for the first, greedy for the second; since
    every delimiter is ASCII, matching by bytes and by runes is the same. *)
From Verif Require Import Base HtmlSpec.
From Coq Require Import String.
Open Scope Z_scope.

Section Html.
  Variable lower : bytes -> bytes.

  (** the first index not below [p] that holds byte [c] *)
  Fixpoint index_byte (c : Z) (s : bytes) : option Z :=
    match s with [] => None | x :: r => if x =? c then Some 0 else option_map Z.succ (index_byte c r) end.
  Definition index_from (c : Z) (s : bytes) (p : Z) : option Z := option_map (Z.add p) (index_byte c (skipn (Z.to_nat p) s)).

  (** htmlbasic.go:40-42 (HTMLBasicTokenize): FindAllStringIndex of an opening bracket, as few characters as
      possible, a closing bracket *)
  Fixpoint find_tags (fuel : nat) (s : bytes) (p : Z) : list (Z * Z) :=
    match fuel with
    | O => []
    | S f =>
        match index_from lt_ s p with
        | None => []
        | Some a => match index_from gt_ s (a + 1) with None => [] | Some b => (a, b + 1) :: find_tags f s (b + 1) end
        end
    end.

  (** strings.Split on a space *)
  Fixpoint split_on (s cur : bytes) : list bytes :=
    match s with
    | [] => [rev cur]
    | x :: r => if x =? space then rev cur :: split_on r [] else split_on r (x :: cur)
    end.

  (** htmlbasic.go:41 (HTMLBasicTokenize): FindAllStringSubmatch of attributes in a part.
      A match is a non-empty run without equal signs, an equal sign, at most one
      quote, and a non-empty run without quotes. *)
  Fixpoint span (ok : Z -> bool) (s : bytes) : bytes * bytes :=
    match s with [] => ([], []) | x :: r => if ok x then let '(a, b) := span ok r in (x :: a, b) else ([], s) end.
  Definition is_quote (c : Z) : bool := (c =? 34) || (c =? 39).
  Fixpoint find_attrs (fuel : nat) (s : bytes) : list (bytes * bytes) :=
    match fuel with
    | O => []
    | S f =>
        match span (fun c => negb (c =? 61)) s with
        | (_, []) => []                       (* no equal sign is left *)
        | ([], _ :: r) => find_attrs f r      (* no key: the search goes on after the sign *)
        | (k, _ :: r) =>
            let r' := match r with c :: t => if is_quote c then t else r | [] => r end in
            match span (fun c => negb (is_quote c)) r' with
            | ([], _) => find_attrs f r       (* no value: the search goes on after the sign *)
            | (v, t) => (k, v) :: find_attrs f t
            end
        end
    end.
  (** seg.Attr[k] = v *)
  Definition set_attr (m : list (bytes * bytes)) (e : bytes * bytes) : list (bytes * bytes) :=
    filter (fun x => negb (beqb (fst x) (fst e))) m ++ [e].

  (** htmlbasic.go:59-79 (HTMLBasicTokenize): an opening tag *)
  Definition open_tag (body : bytes) : token :=
    match split_on body [] with
    | [] => TOpen [] []                       (* not reached: Split never gives an empty list *)
    | name :: parts =>
        TOpen (lower name)
          (fold_left (fun m p => fold_left (fun m a => set_attr m (lower (fst a), snd a)) (find_attrs (S (List.length p)) p) m) parts [])
    end.

  (** htmlbasic.go:47-81 (HTMLBasicTokenize): the loop over the matches *)
  Fixpoint tag_loop (s : bytes) (pos : Z) (caps : list (Z * Z)) : outcome (list token * Z) :=
    match caps with
    | [] => Ret ([], pos)
    | (a, b) :: r =>
        match (if pos <? a then option_map (fun t => [TText t]) (slice s pos a) else Some []), at_ s (a + 1) with
        | Some pre, Some c =>
            match (if c =? 47 then option_map (fun t => TClose (lower t)) (slice s (a + 2) (b - 1))
                   else option_map open_tag (slice s (a + 1) (b - 1))) with
            | None => Panic
            | Some t => obind (tag_loop s b r) (fun x => Ret (pre ++ t :: fst x, snd x))
            end
        | _, _ => Panic
        end
    end.
  (** htmlbasic.go:35-92 [HTMLBasicTokenize] *)
  Definition tokenize (html : bytes) : outcome (list token) :=
    let s := replace_all [13] [] (replace_all [10] [space] html) in
    match find_tags (S (List.length s)) s 0 with
    | [] => Ret [TText s]
    | caps =>
        obind (tag_loop s 0 caps) (fun x =>
          let '(l, pos) := x in
          if pos <? Z.of_nat (List.length s) then
            match slice s pos (Z.of_nat (List.length s)) with Some t => Ret (l ++ [TText t]) | None => Panic end
          else Ret l)
    end.

  (** htmlbasic.go:125-220 [Write]: the calls made on the document, in order.
      The line height is the same in all and is left out. *)
  Record wst := { w_b : Z; w_i : Z; w_u : Z; w_href : bytes; w_align : bytes }.
  (** htmlbasic.go:138-153 (Write), the function setStyle *)
  Definition set_style (b i u : Z) (w : wst) : list call * wst :=
    let w' := {| w_b := w_b w + b; w_i := w_i w + i; w_u := w_u w + u; w_href := w_href w; w_align := w_align w |} in
    ([SetFontStyle ((if w_b w' >? 0 then bs "B" else []) ++ (if w_i w' >? 0 then bs "I" else []) ++ (if w_u w' >? 0 then bs "U" else []))], w').
  (** htmlbasic.go:154-161 (Write), the function putLink *)
  Definition put_link (lk : link) (col : Z * Z * Z) (url txt : bytes) (w : wst) : list call * wst :=
    let '(tr, tg, tb) := col in
    let b := if l_bold lk then 1 else 0 in let i := if l_italic lk then 1 else 0 in let u := if l_under lk then 1 else 0 in
    let '(c1, w1) := set_style b i u w in
    let '(c2, w2) := set_style (- b) (- i) (- u) w1 in
    ([SetColor (l_r lk) (l_g lk) (l_b lk)] ++ c1 ++ [WriteLink txt url] ++ c2 ++ [SetColor tr tg tb], w2).
  Definition set_href (h : bytes) (w : wst) : wst := {| w_b := w_b w; w_i := w_i w; w_u := w_u w; w_href := h; w_align := w_align w |}.
  Definition set_align (a : bytes) (w : wst) : wst := {| w_b := w_b w; w_i := w_i w; w_u := w_u w; w_href := w_href w; w_align := a |}.
  (** htmlbasic.go:165-219 (Write): one token *)
  Definition write_token (lk : link) (col : Z * Z * Z) (t : token) (w : wst) : list call * wst :=
    match t with
    | TText s =>
        match w_href w with
        | _ :: _ => let '(c, w') := put_link lk col (w_href w) s w in (c, set_href [] w')
        | [] => if beqb (w_align w) (bs "C") || beqb (w_align w) (bs "R") then ([WriteAlign s (w_align w)], w) else ([WriteText s], w)
        end
    | TOpen s a =>
        if beqb s (bs "b") then set_style 1 0 0 w
        else if beqb s (bs "i") then set_style 0 1 0 w
        else if beqb s (bs "u") then set_style 0 0 1 w
        else if beqb s (bs "br") then ([NewLine], w)
        else if beqb s (bs "center") then ([NewLine], set_align (bs "C") w)
        else if beqb s (bs "right") then ([NewLine], set_align (bs "R") w)
        else if beqb s (bs "left") then ([NewLine], set_align (bs "L") w)
        else if beqb s (bs "a") then ([], set_href (match find (fun e => beqb (fst e) (bs "href")) a with Some e => snd e | None => [] end) w)
        else ([], w)
    | TClose s =>
        if beqb s (bs "b") then set_style (-1) 0 0 w
        else if beqb s (bs "i") then set_style 0 (-1) 0 w
        else if beqb s (bs "u") then set_style 0 0 (-1) w
        else if beqb s (bs "center") then ([NewLine], set_align (bs "L") w)
        else if beqb s (bs "right") then ([NewLine], set_align (bs "L") w)
        else ([], w)
    end.
  Fixpoint write_tokens (lk : link) (col : Z * Z * Z) (ts : list token) (w : wst) : list call :=
    match ts with [] => [] | t :: r => let '(c, w') := write_token lk col t w in c ++ write_tokens lk col r w' end.
  Definition html_write (lk : link) (col : Z * Z * Z) (html : bytes) : outcome (list call) :=
    obind (tokenize html) (fun ts => Ret (write_tokens lk col ts {| w_b := 0; w_i := 0; w_u := 0; w_href := []; w_align := bs "L" |})).
End Html.
