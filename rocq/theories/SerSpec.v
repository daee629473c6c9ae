(** What writing a template and reading it back must keep. *)
From Coq Require Import String.
From Verif Require Import Base Crypto DocModel TplModel.
Local Open Scope list_scope.
Open Scope Z_scope.

Section Spec.
  Variables (num data : Type) (sha1hex : bytes -> bytes) (ihash : data -> Z -> bytes).
  Variable shuffle : list (bytes * img data) -> list (bytes * img data).
  Notation tmpl := (tmpl num data). Notation call := (call num data). Notation img := (img data).
  (** a page's contents draw the image with this identifier *)
  Definition has_image (t : tmpl) (i : bytes) : Prop := exists name im, In (name, im) (t_images t) /\ ig_i im = i.
  (** Two templates that draw the same: size, corner, all pages, current page, the images by identifier, and the templates
      they use, in turn (a list of templates is a set here: order and repetition do not matter). *)
  Inductive same : tmpl -> tmpl -> Prop :=
  | same_tm t u : t_size t = t_size u -> t_pages t = t_pages u -> t_page t = t_page u ->
      (forall i, has_image t i <-> has_image u i) ->
      (forall a, In a (t_subs t) -> exists b, In b (t_subs u) /\ same a b) ->
      (forall b, In b (t_subs u) -> exists a, In a (t_subs t) /\ same a b) ->
      same t u.

  (** One name means one image throughout the program, [N]; the name a template's image gets in a document that uses the
      template means that image. *)
  Definition naming (N : bytes -> img) : Prop := forall id k, N (tname id k) = N k.
  (** the templates a program can create with such names: by drawing, using others, or taking a page *)
  Inductive built (N : bytes -> img) : tmpl -> Prop :=
  | built_new corner size imgs begin (l : list call) t : (forall k v, In (k, v) imgs -> v = N k) -> (forall k v, In (@AddImage num data k v) l -> v = N k) ->
      (forall u place, In (Use (Some u) place) l -> built N u) -> new_tpl sha1hex shuffle corner size imgs begin l = Ret t -> built N t
  | built_page t k t' : built N t -> 1 <= k -> from_page t k = Some t' -> built N t'.
  (** an image that is as it was when it was registered: its identifier is the hash of its data and object number *)
  Definition as_registered (im : img) : Prop := ig_i im = ihash (ig_data im) (ig_n im).
  Inductive inside : tmpl -> tmpl -> Prop :=
  | in_self t : inside t t
  | in_sub s u t : In u (t_subs t) -> inside s u -> inside s t.
  (** the identifier, a hash of the current page, tells the templates apart *)
  Definition told_apart (t : tmpl) : Prop := forall a b, inside a t -> inside b t -> t_id sha1hex a = t_id sha1hex b -> a = b.
End Spec.
