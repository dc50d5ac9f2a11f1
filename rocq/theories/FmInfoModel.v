(** What an Fmesh says about itself: the attributes with setters (type, comments, particle, strength, cooling_time), tally, trsf
    and print_info (src/f4enix/output/meshtal/fmesh.py).  An attribute holds a Python value; numbers are exact.  A bool is an int
    for isinstance.  The data array and the grid are in FmeshModel. *)
From Verif Require Import PyBase PyStr MeshModel FmeshModel.
Open Scope nat_scope.

(** the Python values a setter can be given; [VOther] stands for anything else (lists, bytes, numpy scalars that are not floats...) *)
Inductive pyval := VNone | VStr (s : str) | VFloat (q : Q) | VInt (z : Z) | VBool (b : bool) | VOther.
(** isinstance(value, (str, type(None))): fmesh.py 310, 323, 336 *)
Definition is_text (v : pyval) : bool := match v with VNone | VStr _ => true | _ => false end.
(** isinstance(value, (float, int)): fmesh.py 349, 362 *)
Definition is_number (v : pyval) : bool := match v with VFloat _ | VInt _ | VBool _ => true | _ => false end.
Definition is_none (v : pyval) : bool := match v with VNone => true | _ => false end.

(** the attributes that can be assigned: fmesh.py 308, 321, 334, 347, 360 *)
Inductive attr := AType | AComments | AParticle | AStrength | ACooling.
(** fmesh.py 277-285: the state of an Fmesh; the transformation is opaque here *)
Record fminfo (T : Type) := mkFI { fi_mesh : mdata; fi_tally : str; fi_trsf : option T;
  fi_type : pyval; fi_comments : pyval; fi_particle : pyval; fi_strength : pyval; fi_cooling : pyval }.
Arguments mkFI {T}. Arguments fi_mesh {T}. Arguments fi_tally {T}. Arguments fi_trsf {T}. Arguments fi_type {T}.
Arguments fi_comments {T}. Arguments fi_particle {T}. Arguments fi_strength {T}. Arguments fi_cooling {T}.
(** fmesh.py 239-285 __init__: the rest is None *)
Definition new_fmesh {T} (m : mdata) (label : str) (tr : option T) : fminfo T := mkFI m label tr VNone VNone VNone VNone VNone.
(** fmesh.py 301-306, 314-319, 327-332, 340-345, 353-358: the getters *)
Definition get {T} (a : attr) (s : fminfo T) : pyval :=
  match a with AType => fi_type s | AComments => fi_comments s | AParticle => fi_particle s | AStrength => fi_strength s | ACooling => fi_cooling s end.
(** fmesh.py 308-312 type.setter *)
Definition set_type {T} (v : pyval) (s : fminfo T) : res (fminfo T) :=
  if negb (is_text v) then Err TypeError else Ok (mkFI (fi_mesh s) (fi_tally s) (fi_trsf s) v (fi_comments s) (fi_particle s) (fi_strength s) (fi_cooling s)).
(** fmesh.py 321-325 comments.setter *)
Definition set_comments {T} (v : pyval) (s : fminfo T) : res (fminfo T) :=
  if negb (is_text v) then Err TypeError else Ok (mkFI (fi_mesh s) (fi_tally s) (fi_trsf s) (fi_type s) v (fi_particle s) (fi_strength s) (fi_cooling s)).
(** fmesh.py 334-338 particle.setter *)
Definition set_particle {T} (v : pyval) (s : fminfo T) : res (fminfo T) :=
  if negb (is_text v) then Err TypeError else Ok (mkFI (fi_mesh s) (fi_tally s) (fi_trsf s) (fi_type s) (fi_comments s) v (fi_strength s) (fi_cooling s)).
(** fmesh.py 347-351 strength.setter *)
Definition set_strength {T} (v : pyval) (s : fminfo T) : res (fminfo T) :=
  if negb (is_none v) && negb (is_number v) then Err TypeError else Ok (mkFI (fi_mesh s) (fi_tally s) (fi_trsf s) (fi_type s) (fi_comments s) (fi_particle s) v (fi_cooling s)).
(** fmesh.py 360-366 cooling_time.setter *)
Definition set_cooling {T} (v : pyval) (s : fminfo T) : res (fminfo T) :=
  if negb (is_none v) && negb (is_number v) then Err TypeError else Ok (mkFI (fi_mesh s) (fi_tally s) (fi_trsf s) (fi_type s) (fi_comments s) (fi_particle s) (fi_strength s) v).
(** the assignment mesh.a = v *)
Definition set {T} (a : attr) (v : pyval) (s : fminfo T) : res (fminfo T) :=
  match a with AType => set_type v s | AComments => set_comments v s | AParticle => set_particle v s | AStrength => set_strength v s | ACooling => set_cooling v s end.
(** a history of assignments by a user who goes on after a refused one *)
Definition run {T} (s : fminfo T) (ops : list (attr * pyval)) : fminfo T :=
  fold_left (fun s o => match set (fst o) (snd o) s with Ok s' => s' | Err _ => s end) ops s.

(** what print_info puts in its dictionary *)
Inductive info := IVal (v : pyval) | IAxis (x : list Q) | IBin (b : xbin) | IGeom (cyl : bool).
(** fmesh.py 368-388 print_info *)
Definition print_info {T} (s : fminfo T) : list (str * info) :=
  let m := fi_mesh s in
  [(s2l "tally", IVal (VStr (fi_tally s))); (s2l "type", IVal (fi_type s)); (s2l "comments", IVal (fi_comments s));
   (s2l "particle", IVal (fi_particle s)); (s2l "x1bin", IAxis (md_x1 m)); (s2l "x2bin", IAxis (md_x1 m));
   (s2l "x3bin", IAxis (md_x1 m)); (s2l "ebin", IBin (md_e m)); (s2l "tbin", IBin (md_t m)); (s2l "geometry", IGeom (md_cyl m))].
