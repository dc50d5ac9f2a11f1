(** C98: what the summary of the tallies must say. *)
From Verif Require Import PyBase PyStr PyText LibModel InpGeomSpec MatModel DataModel TalSumModel.
Open Scope nat_scope.

Definition only_letters (w : str) : Prop := Forall (fun c => LibModel.is_letter c = true) w.
Definition occurs (p s : str) : Prop := exists a b, s = a ++ p ++ b.
(** a line starts with the name of its card, in capitals or in small letters, followed by the text t in
    which the name does not occur again *)
Definition Tagged (tag l t : str) : Prop :=
  (l = tag ++ t \/ l = map lower tag ++ t) /\ ~ occurs tag t /\ ~ occurs (map lower tag) t.
(** the line of a tally names its particles: a colon, letters n and p (with commas), then something else *)
Definition Particles (l ps : str) : Prop :=
  exists a r, l = a ++ ":"%char :: ps ++ r /\ ~ In ":"%char a /\ ps <> [] /\ Forall (fun c => is_np c = true) ps /\
    match r with c :: _ => is_np c = false | [] => True end.
(** what the cards of a tally say: its particles, the text of the first line of its comment, and the text of the first
    line of its multiplier with the lines that follow *)
Record entry := mkEntry { e_ps : str; e_desc : option str; e_mult : option (str * list str) }.
Definition Cards (tag : string) (d : odict) (n : Z) (e : entry) : Prop :=
  (0 <= n)%Z /\
  (exists l more, dget str_eqb (kcat tag n) d = Some (l :: more) /\ Particles l (e_ps e)) /\
  (match e_desc e with
   | None => dget str_eqb (kcat "FC" n) d = None
   | Some t => exists l more, dget str_eqb (kcat "FC" n) d = Some (l :: more) /\ Tagged (kcat "FC" n) l t
   end) /\
  (match e_mult e with
   | None => dget str_eqb (kcat "FM" n) d = None
   | Some (t, more) => exists l, dget str_eqb (kcat "FM" n) d = Some (l :: more) /\ Tagged (kcat "FM" n) l t /\ (more = [] -> split t <> [])
   end) /\
  (* no other card of this number has a name that starts with FC or FM *)
  (forall w, only_letters w -> In (s2l "F" ++ w ++ str_of_Z n) (dkeys d) ->
     (forall r, w = "C"%char :: r -> r = []) /\ (forall r, w = "M"%char :: r -> r = [] \/ tag = "FMESH"%string /\ r = s2l "ESH")).
(** the text of a list of texts *)
Definition comma_joined (ws : list str) : str := match ws with [] => [] | w :: r => w ++ concat (map (fun x => s2l ", " ++ x) r) end.
Definition list_text (repr : str -> str) (ws : list str) : str := "["%char :: comma_joined (map repr ws) ++ ["]"%char].
(** its row: a multiplier on one line is a normalisation and further words; on more lines it has no normalisation and
    lists the words of the first line (when there are any) and each further line that is no comment *)
Definition row_of (repr : str -> str) (n : Z) (e : entry) : trow :=
  let (norm, others) :=
    match e_mult e with
    | None => (None, [])
    | Some (t, []) => (hd_error (split t), tl (split t))
    | Some (t, more) => (Some (s2l "N.A."),
        (if match split t with [] => true | _ => false end then [] else [list_text repr (split t)]) ++
        map strip (filter (fun l => negb (c_line l)) more))
    end in
  mkTR n (Some (upper (e_ps e))) (option_map strip (e_desc e)) norm (match others with [] => None | _ => Some others end).
