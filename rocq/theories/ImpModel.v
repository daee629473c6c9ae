(** fpdf.go:3258-3338: what the importer of pages hands over (ImportObjects, ImportObjPos, ImportTemplates).
    A Go map is a list of pairs with distinct keys.  The argument of a call is the list of its pairs in the order in which Go happens
    to visit them.  The document keeps the caller's slices; they are written to in putImportedTemplates only (DocModel.put_imported). *)
From Verif Require Import Base Crypto DocModel TplModel.
Open Scope Z_scope.

(** def.go:508-510 *)
Record imports := { ix_objs : list (bytes * bytes); ix_pos : list (bytes * list (Z * bytes)); ix_tpls : list (bytes * bytes) }.
(** fpdf.go:89-91 *)
Definition no_imports : imports := {| ix_objs := []; ix_pos := []; ix_tpls := [] |}.
(** fpdf.go:3258-3262 [ImportObjects] *)
Definition import_objects (l : list (bytes * bytes)) (x : imports) : imports :=
  {| ix_objs := fold_left (fun m e => put (fst e) (snd e) m) l (ix_objs x); ix_pos := ix_pos x; ix_tpls := ix_tpls x |}.
(** fpdf.go:3265-3269 [ImportObjPos] *)
Definition import_pos (l : list (bytes * list (Z * bytes))) (x : imports) : imports :=
  {| ix_objs := ix_objs x; ix_pos := fold_left (fun m e => put (fst e) (snd e) m) l (ix_pos x); ix_tpls := ix_tpls x |}.
(** fpdf.go:3333-3337 [ImportTemplates] *)
Definition import_templates (l : list (bytes * bytes)) (x : imports) : imports :=
  {| ix_objs := ix_objs x; ix_pos := ix_pos x; ix_tpls := fold_left (fun m e => put (fst e) (snd e) m) l (ix_tpls x) |}.
(** a call of one of the three; not in the code *)
Inductive import_call := Objects (l : list (bytes * bytes)) | Positions (l : list (bytes * list (Z * bytes))) | Names (l : list (bytes * bytes)).
Definition import_one (x : imports) (c : import_call) : imports :=
  match c with Objects l => import_objects l x | Positions l => import_pos l x | Names l => import_templates l x end.
Definition import_all (cs : list import_call) : imports := fold_left import_one cs no_imports.
(** the two maps as putImportedTemplates reads them, fpdf.go:3283-3301: a missing entry of the second is an empty map *)
Definition objects_of (x : imports) : list (bytes * (bytes * list (Z * bytes))) :=
  map (fun e => (fst e, (snd e, match get (fst e) (ix_pos x) with Some p => p | None => [] end))) (ix_objs x).
