(** template_impl.go: writing templates to bytes and reading them back (Serialize, DeserializeTemplate, GobEncode, GobDecode).

    encoding/gob is not modelled: it is taken to give back the values it was given, in the order they were written, so a byte
    string is the tree of those values.  An image is written without its identifier (def.go:189-202) and gets a new one when
    it is read (def.go:204-217), computed from its data and its object number. *)
From Coq Require Import String.
From Verif Require Import Base Crypto DocModel TplModel.
Local Open Scope list_scope.
Open Scope Z_scope.
Notation length := List.length.

Set Implicit Arguments.
Unset Strict Implicit.
Section Ser.
  Variables (num data : Type) (sha1hex : bytes -> bytes) (ihash : data -> Z -> bytes).
  Notation tmpl := (tmpl num data). Notation img := (img data).
  (** what GobEncode writes: template_impl.go:182-226 *)
  Inductive wire := Wire (subs : list wire) (images : list (bytes * (data * Z))) (corner size : num * num) (pages : list bytes) (page : Z).

  (** the identifiers of a list of templates *)
  Fixpoint ids (l : list tmpl) : outcome (list bytes) :=
    match l with [] => Ret [] | t :: l => obind (t_id sha1hex t) (fun i => obind (ids l) (fun r => Ret (i :: r))) end.
  (** template_impl.go:153-165 [childrenImages]; the identifier is asked for even when there is no image *)
  Definition child_images_in (i : bytes) (l : list (bytes * img)) (m : list (bytes * img)) : list (bytes * img) :=
    fold_left (fun m e => put (tname i (fst e)) (snd e) m) l m.
  Fixpoint children_images (l : list tmpl) (m : list (bytes * img)) : outcome (list (bytes * img)) :=
    match l with [] => Ret m | t :: l => obind (t_id sha1hex t) (fun i => children_images l (child_images_in i (t_images t) m)) end.
  (** template_impl.go:169-178 [childrensTemplates] *)
  Definition children_templates (l : list tmpl) : list tmpl := flat_map (fun t => t_subs t) l.

  (** template_impl.go:186-199 (GobEncode): the templates that no other one uses, each with what it is written as *)
  Fixpoint first_class (inner : list bytes) (l : list (tmpl * outcome wire)) : outcome (list wire) :=
    match l with
    | [] => Ret []
    | (t, w) :: l =>
        match inner with
        | [] => obind w (fun w => obind (first_class inner l) (fun r => Ret (w :: r)))      (* no identifier is asked for *)
        | _ => obind (t_id sha1hex t) (fun i =>
               if existsb (beqb i) inner then first_class inner l
               else obind w (fun w => obind (first_class inner l) (fun r => Ret (w :: r))))
        end
    end.
  (** def.go:190-202 (GobEncode of an image) *)
  Definition img_out (e : bytes * img) : bytes * (data * Z) := (fst e, (ig_data (snd e), ig_n (snd e))).
  (** def.go:206-217 (GobDecode of an image) *)
  Definition img_in (e : bytes * (data * Z)) : bytes * img := (fst e, {| ig_data := fst (snd e); ig_n := snd (snd e); ig_i := ihash (fst (snd e)) (snd (snd e)) |}).
  (** template_impl.go:182-227 [GobEncode] *)
  Fixpoint encode (t : tmpl) : outcome wire :=
    let 'Tm corner size pages images subs page := t in
    obind (ids (children_templates subs)) (fun inner =>
    obind (first_class inner (map (fun s => (s, encode s)) subs)) (fun ws =>
    obind (children_images subs []) (fun ci =>
    Ret (Wire ws (map img_out (filter (fun e => match get (fst e) ci with Some _ => false | None => true end) images)) corner size pages page)))).
  Fixpoint all_ret {A} (l : list (outcome A)) : outcome (list A) :=
    match l with [] => Ret [] | x :: l => obind x (fun x => obind (all_ret l) (fun r => Ret (x :: r))) end.
  (** template_impl.go:230-269 [GobDecode] *)
  Fixpoint decode (w : wire) : outcome tmpl :=
    let 'Wire ws images corner size pages page := w in
    obind (all_ret (map decode ws)) (fun ts =>
    obind (children_images ts []) (fun ci =>
    Ret (Tm corner size pages (fold_left (fun m e => put (fst e) (snd e) m) ci (map img_in images)) (children_templates ts ++ ts) page))).
  (** template_impl.go:133-139 [Serialize], template_impl.go:143-148 [DeserializeTemplate] *)
  Definition serialize (t : tmpl) : outcome wire := encode t.
  Definition deserialize (w : wire) : outcome tmpl := decode w.
End Ser.
