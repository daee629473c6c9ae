(** Templates: template.go and template_impl.go.
    [num] is float64; [sha1hex] is fmt.Sprintf("%x", sha1.Sum(b)); [data] is what an
    image consists of apart from its object number n and its identifier i, and
    [ihash] computes the identifier (def.go:184-187 [generateImageID]). *)
From Coq Require Import String.
From Verif Require Import Base Crypto DocModel.
Local Open Scope list_scope.
Open Scope Z_scope.
Notation length := List.length.

Set Implicit Arguments.
Unset Strict Implicit.
Section Tpl.
  Variables (num data : Type) (sha1hex : bytes -> bytes) (ihash : data -> Z -> bytes).
  (** def.go:160-182 (ImageInfoType) *)
  Record img := { ig_data : data; ig_n : Z; ig_i : bytes }.
  (** template_impl.go:58-65 (FpdfTpl): [pages] has an unused entry 0 *)
  Inductive tmpl := Tm (corner size : num * num) (pages : list bytes) (images : list (bytes * img)) (subs : list tmpl) (page : Z).
  Definition t_pages (t : tmpl) : list bytes := let 'Tm _ _ p _ _ _ := t in p.
  Definition t_images (t : tmpl) := let 'Tm _ _ _ i _ _ := t in i.
  Definition t_subs (t : tmpl) := let 'Tm _ _ _ _ s _ := t in s.
  Definition t_page (t : tmpl) := let 'Tm _ _ _ _ _ p := t in p.
  (** template_impl.go:72-74 [Size] *)
  Definition t_size (t : tmpl) := let 'Tm c s _ _ _ _ := t in (c, s).
  (** template_impl.go:77-79 [Bytes]: an index out of range is a panic *)
  Definition t_bytes (t : tmpl) : outcome bytes := match at_ (t_pages t) (t_page t) with Some b => Ret b | None => Panic end.
  (** template_impl.go:67-69 [ID] *)
  Definition t_id (t : tmpl) : outcome bytes := obind (t_bytes t) (fun b => Ret (sha1hex b)).
  (** template_impl.go:126-130 [NumPages] *)
  Definition num_pages (t : tmpl) : Z := zlen (t_pages t) - 1.
  (** template_impl.go:82-100 [FromPage]: [None] is an error.  The copy made when the
      page differs is not told apart from the original: nothing here compares
      pointers. *)
  Definition from_page (t : tmpl) (k : Z) : option tmpl :=
    if k =? 0 then None else if num_pages t <? k then None
    else if t_page t =? k then Some t
    else let 'Tm c s p i u _ := t in Some (Tm c s p i u k).
  (** template_impl.go:103-113 [FromPages] *)
  Definition from_pages (t : tmpl) : list (option tmpl) := map (fun i => from_page t (Z.of_nat i)) (seq 1 (Z.to_nat (num_pages t))).

  (** ** The part of a document that templates touch; index 0 of [c_pages] is unused *)
  Record tdoc := { c_pages : list bytes; c_page : Z; c_tpls : list (bytes * tmpl); c_imgs : list (bytes * img); c_err : bool }.
  (** m[k] = v and the lookup of maps *)
  Fixpoint put {A} (k : bytes) (v : A) (m : list (bytes * A)) : list (bytes * A) :=
    match m with [] => [(k, v)] | (x, w) :: t => if beqb k x then (k, v) :: t else (x, w) :: put k v t end.
  Fixpoint get {A} (k : bytes) (m : list (bytes * A)) : option A :=
    match m with [] => None | (x, w) :: t => if beqb k x then Some w else get k t end.
  (** fpdf.go:3756-3764 [out]: text goes to the current page *)
  Definition emit (b : bytes) (c : tdoc) : outcome tdoc :=
    if c_page c <=? 0 then Ret c
    else match at_ (c_pages c) (c_page c) with
         | Some old => Ret {| c_pages := set_nth (Z.to_nat (c_page c)) (old ++ b) (c_pages c); c_page := c_page c; c_tpls := c_tpls c; c_imgs := c_imgs c; c_err := c_err c |}
         | None => Panic
         end.
  (** template.go:101 (UseTemplateScaled): the name under which an image is added *)
  Definition tname (id name : bytes) : bytes := bs "t" ++ id ++ bs "-" ++ name.
  (** [shuffle]: range over a map *)
  Variable shuffle : list (bytes * img) -> list (bytes * img).
  (** template.go:69-112 [UseTemplateScaled]; [place] is the line written at 110 *)
  Definition use (t : tmpl) (place : bytes) (c : tdoc) : outcome tdoc :=
    if c_page c <=? 0 then Ret {| c_pages := c_pages c; c_page := c_page c; c_tpls := c_tpls c; c_imgs := c_imgs c; c_err := true |}
    else
      obind (t_id t) (fun id =>
      obind (fold_left (fun m s => obind m (fun m => obind (t_id s) (fun i => Ret (put i s m)))) (t_subs t) (Ret (put id t (c_tpls c)))) (fun tpls =>
      let imgs := fold_left (fun m e => if existsb (fun x => beqb (ig_i (snd x)) (ig_i (snd e))) (c_imgs c) then m else put (tname id (fst e)) (snd e) m) (shuffle (t_images t)) (c_imgs c) in
      emit (place ++ bs "/TPL" ++ id ++ bs " Do Q" ++ nl) {| c_pages := c_pages c; c_page := c_page c; c_tpls := tpls; c_imgs := imgs; c_err := c_err c |})).
  (** The calls of the drawing function: [AddPage] with what the footer of the page
      before and the start of the new page write; SetPage; anything that writes to the page; an image; UseTemplate (nil or not). *)
  Inductive call := AddPage (footer begin : bytes) | SetPage (n : Z) | Draw (b : bytes) | AddImage (name : bytes) (im : img) | Use (t : option tmpl) (place : bytes).
  Definition step (x : call) (c : tdoc) : outcome tdoc :=
    match x with
    | AddPage footer b =>                (* fpdf.go:719-822 [AddPageFormat], fpdf.go:3509-3551 [beginpage] *)
        if c_err c then Ret c
        else
          let last := zlen (c_pages c) - 1 in
          obind (emit footer {| c_pages := c_pages c; c_page := last; c_tpls := c_tpls c; c_imgs := c_imgs c; c_err := c_err c |}) (fun c =>
          emit b {| c_pages := c_pages c ++ [[]]; c_page := last + 1; c_tpls := c_tpls c; c_imgs := c_imgs c; c_err := c_err c |})
    | SetPage n =>                       (* fpdf.go:400-404 [SetPage] *)
        Ret (if (0 <? n) && (n <? zlen (c_pages c)) then {| c_pages := c_pages c; c_page := n; c_tpls := c_tpls c; c_imgs := c_imgs c; c_err := c_err c |} else c)
    | Draw b => emit b c
    | AddImage name im =>                (* fpdf.go:3163-3202 [RegisterImageOptionsReader] *)
        Ret (if c_err c then c else match get name (c_imgs c) with
             | Some _ => c
             | None => {| c_pages := c_pages c; c_page := c_page c; c_tpls := c_tpls c; c_imgs := put name im (c_imgs c); c_err := c_err c |}
             end)
    | Use (Some t) place => use t place c
    | Use None _ =>                      (* template.go:58-65 [UseTemplate] *)
        Ret {| c_pages := c_pages c; c_page := c_page c; c_tpls := c_tpls c; c_imgs := c_imgs c; c_err := true |}
    end.
  Fixpoint run (l : list call) (c : tdoc) : outcome tdoc := match l with [] => Ret c | x :: t => obind (step x c) (run t) end.
  (** template_impl.go:29-54 [newTpl]: [imgs] are the images of the document the
      settings are copied from (template_impl.go:278-303 [loadParamsFromFpdf]), [begin] is what
      the first page starts with, [l] are the calls of the drawing function *)
  Definition tpl_start (imgs : list (bytes * img)) : tdoc := {| c_pages := [[]]; c_page := 0; c_tpls := []; c_imgs := imgs; c_err := false |}.
  Definition new_tpl (corner size : num * num) (imgs : list (bytes * img)) (begin : bytes) (l : list call) : outcome tmpl :=
    obind (run (AddPage [] begin :: l) (tpl_start imgs)) (fun c =>
    Ret (Tm corner size (c_pages c) (c_imgs c) (map snd (sort_by by_key (c_tpls c))) (c_page c))).
End Tpl.
