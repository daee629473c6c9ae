(** fpdf.go: the W array of a UTF-8 font, generateCIDFontMap. *)
From Coq Require Import String.
From Verif Require Import Base KeyMap.
Open Scope Z_scope.

Definition interval : key := KStr (bs "interval").
(** a Go map[int]*untypedKeyMap; a missing key is a nil pointer, whose use panics *)
Definition arrays := list (Z * keymap).
Fixpoint find_arr (k : Z) (m : arrays) : outcome keymap :=
  match m with [] => Panic | (x, a) :: t => if x =? k then Ret a else find_arr k t end.
Definition set_arr (k : Z) (a : keymap) (m : arrays) : arrays := (k, a) :: filter (fun e => negb (fst e =? k)) m.
Definition upd_arr (k : Z) (f : keymap -> outcome keymap) (m : arrays) : outcome arrays :=
  obind (find_arr k m) (fun a => obind (f a) (fun a' => Ret (set_arr k a' m))).
Definition put_nil (k v : Z) (m : arrays) : outcome arrays := upd_arr k (put None v) m.

(** the variables of the first loop *)
Record cst := { c_range : Z; c_arr : arrays; c_keys : list Z; c_prev : Z; c_pw : Z; c_int : bool }.

(** fpdf.go:4222-4228, 4237-4243 and 4251-4257 in [generateCIDFontMap]: a new array for [k], listed *)
Definition new_range (k : Z) (s : cst) : cst :=
  {| c_range := k; c_arr := set_arr k km_new (c_arr s); c_keys := c_keys s ++ [k]; c_prev := c_prev s; c_pw := c_pw s; c_int := c_int s |}.
Definition with_arr (s : cst) (a : arrays) : cst :=
  {| c_range := c_range s; c_arr := a; c_keys := c_keys s; c_prev := c_prev s; c_pw := c_pw s; c_int := c_int s |}.
Definition with_int (b : bool) (s : cst) : cst :=
  {| c_range := c_range s; c_arr := c_arr s; c_keys := c_keys s; c_prev := c_prev s; c_pw := c_pw s; c_int := b |}.
Definition with_prev (cid w : Z) (s : cst) : cst :=
  {| c_range := c_range s; c_arr := c_arr s; c_keys := c_keys s; c_prev := cid; c_pw := w; c_int := c_int s |}.

(** fpdf.go:4201-4263, one round of the loop over the characters that is not
    skipped by continue *)
Definition cid_step (cid width : Z) (s : cst) : outcome cst :=
  obind
    (if cid =? c_prev s + 1 then
       if width =? c_pw s then
         obind (obind (find_arr (c_range s) (c_arr s)) (get (KInt 0))) (fun w0 =>
         obind
           (if width =? w0 then obind (put_nil (c_range s) width (c_arr s)) (fun a => Ret (with_arr s a))
            else
              obind (upd_arr (c_range s) pop (c_arr s)) (fun a =>
              let s := new_range (c_prev s) (with_arr s a) in
              obind (put_nil (c_range s) (c_pw s) (c_arr s)) (fun a =>
              obind (put_nil (c_range s) width a) (fun a => Ret (with_arr s a)))))
           (fun s =>
         let s := with_int true s in
         obind (upd_arr (c_range s) (put (Some interval) 1) (c_arr s)) (fun a => Ret (with_arr s a))))
       else
         obind
           (if c_int s then
              let s := new_range cid s in
              obind (put_nil (c_range s) width (c_arr s)) (fun a => Ret (with_arr s a))
            else obind (put_nil (c_range s) width (c_arr s)) (fun a => Ret (with_arr s a)))
           (fun s => Ret (with_int false s))
     else
       let s := new_range cid s in
       obind (put_nil (c_range s) width (c_arr s)) (fun a => Ret (with_int false (with_arr s a))))
    (fun s => Ret (with_prev cid width s)).

(** fpdf.go:4202-4212: which characters are skipped, and the width.  [cw] is
    font.Cw (an index beyond it panics), [used] font.usedRunes (0 if absent) *)
Definition cid_width (cw : list Z) (used : Z -> Z) (cid : Z) : outcome (option Z) :=
  match nth_error cw (Z.to_nat cid) with
  | None => Panic
  | Some w =>
      if w =? 0 then Ret None
      else
        let width := if w =? 65535 then 0 else w in
        if (255 <? cid) && (used cid =? 0) then Ret None else Ret (Some width)
  end.
(** fpdf.go:4202-4263: the loop; [k] characters are left *)
Fixpoint cid_loop (cw : list Z) (used : Z -> Z) (k : nat) (cid : Z) (s : cst) : outcome cst :=
  match k with
  | O => Ret s
  | S k' =>
      obind (cid_width cw used cid) (fun ow =>
      obind (match ow with None => Ret s | Some w => cid_step cid w s end) (fun s => cid_loop cw used k' (cid + 1) s))
  end.

(** util.go:433-446 [remove], of the last place where the key occurs (0 if none) *)
Definition last_place (k : Z) (l : list Z) : nat :=
  snd (fold_left (fun (e : nat * nat) x => (S (fst e), if x =? k then fst e else snd e)) l (O, O)).
Definition remove_key (k : Z) (l : list Z) : list Z := cut (last_place k l) l.

(** util.go:404-431 [arrayMerge], both arguments non-nil (find_arr has checked) *)
Fixpoint merge_loop (a1 : keymap) (ks : list key) (vs : list Z) (ans : keymap) : outcome keymap :=
  match ks, vs with
  | [], _ => Ret ans
  | _ :: _, [] => Panic
  | k :: ks, v :: vs =>
      obind
        (if keqb k interval then
           if get_index a1 interval <? 0 then put (Some interval) v ans else Ret ans
         else put None v ans) (fun ans => merge_loop a1 ks vs ans)
  end.
Definition array_merge (a1 a2 : keymap) : outcome keymap := merge_loop a1 (km_keys a2) (km_vals a2) a1.

(** what a slice header taken before delete sees after it: an element removed
    from the middle is overwritten by the later ones, the last stays twice *)
Definition alias_view (k : key) (ws : keymap) : keymap :=
  let i := get_index ws k in
  if (0 <? i) && (i <? Z.of_nat (List.length (km_keys ws)) - 1) then
    {| km_keys := cut (Z.to_nat i) (km_keys ws) ++ [last (km_keys ws) k]; km_vals := cut (Z.to_nat i) (km_vals ws) ++ [last (km_vals ws) 0] |}
  else ws.

(** the variables of the second loop *)
Record gst := { g_arr : arrays; g_keys : list Z; g_prevkey : Z; g_next : Z; g_isint : bool }.
(** fpdf.go:4267-4295: the second loop; [g] is the loop variable, [fuel] bounds
    the rounds (each removes a key or advances g) *)
Fixpoint merge_ranges (fuel : nat) (g : nat) (s : gst) : outcome gst :=
  match fuel with
  | O => OutOfFuel
  | S f =>
      match nth_error (g_keys s) g with
      | None => Ret s
      | Some k =>
          obind (find_arr k (g_arr s)) (fun ws =>
          let cws := Z.of_nat (List.length (km_keys ws)) in
          obind
            (if (k =? g_next s) && negb (g_isint s) && ((get_index ws interval <? 0) || (cws <? 4)) then
               let wd := if 0 <=? get_index ws interval then delete interval ws else ws in
               let view := if 0 <=? get_index ws interval then alias_view interval ws else ws in
               let a := set_arr k wd (g_arr s) in
               obind (find_arr (g_prevkey s) a) (fun p =>
               obind (array_merge p wd) (fun m =>
               Ret (g, view, {| g_arr := set_arr (g_prevkey s) m a; g_keys := remove_key k (g_keys s); g_prevkey := g_prevkey s;
                          g_next := g_next s; g_isint := g_isint s |})))
             else
               Ret (S g, ws, {| g_arr := g_arr s; g_keys := g_keys s; g_prevkey := k; g_next := g_next s; g_isint := g_isint s |}))
            (fun r => let '(g', view, s) := r in
               let next := k + cws in
               if 0 <=? get_index view interval then
                 obind (upd_arr k (fun a => Ret (delete interval a)) (g_arr s)) (fun a =>
                 merge_ranges f g' {| g_arr := a; g_keys := g_keys s; g_prevkey := g_prevkey s; g_next := next - 1; g_isint := 3 <? cws |})
               else
                 merge_ranges f g' {| g_arr := g_arr s; g_keys := g_keys s; g_prevkey := g_prevkey s; g_next := next; g_isint := false |}))
      end
  end.

(** fpdf.go:4308-4318 [implode] *)
Fixpoint implode (sep : bytes) (l : list Z) : bytes :=
  match l with [] => [] | [x] => dec x | x :: t => dec x ++ sep ++ implode sep t end.
(** fpdf.go:4321-4327 [arrayCountValues]: the number of different values *)
Definition count_values (l : list Z) : nat := List.length (nodup Z.eq_dec l).
(** fpdf.go:4296-4304: the text of the ranges *)
Fixpoint print_ranges (keys : list Z) (m : arrays) : outcome bytes :=
  match keys with
  | [] => Ret []
  | k :: t =>
      obind (find_arr k m) (fun ws =>
      obind
        (if Nat.eqb (count_values (km_vals ws)) 1 then
           obind (get (KInt 0) ws) (fun w0 =>
           Ret (bs " " ++ dec k ++ bs " " ++ dec (k + Z.of_nat (List.length (km_vals ws)) - 1) ++ bs " " ++ dec w0))
         else Ret (bs " " ++ dec k ++ bs " [ " ++ implode (bs " ") (km_vals ws) ++ bs " ]" ++ [10]))
        (fun s => obind (print_ranges t m) (fun r => Ret (s ++ r))))
  end.

(** fpdf.go:4191-4306 [generateCIDFontMap]: the line written *)
Definition w_line (cw : list Z) (used : Z -> Z) (last_rune : Z) : outcome bytes :=
  let s := {| c_range := 0; c_arr := []; c_keys := []; c_prev := -2; c_pw := -1; c_int := false |} in
  obind (cid_loop cw used (Z.to_nat last_rune) 1 s) (fun s =>
  obind (merge_ranges (S (2 * List.length (c_keys s))) 0 {| g_arr := c_arr s; g_keys := c_keys s; g_prevkey := -1; g_next := -1; g_isint := false |}) (fun g =>
  obind (print_ranges (g_keys g) (g_arr g)) (fun w => Ret (bs "/W [" ++ w ++ bs " ]")))).

