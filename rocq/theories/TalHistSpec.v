(** C112: what the lists of tallies of an input must say. *)
From Verif Require Import PyBase PyStr PyText LibModel InpModel InpGeomSpec MatModel DataModel TalSumModel HelpSpec TalHistModel.
Open Scope nat_scope.

(** the name of a mesh tally: FMESH and a digit *)
Definition mesh_name (key : str) : Prop := exists d r, key = s2l "FMESH" ++ d :: r /\ is_digit d = true.
(** the parser is right about the cards: it tells a tally by its name F and its number, and reads the number of tallies and meshes *)
Definition right (kc : str * rcard) : Prop :=
  (rc_fn (snd kc) = true <-> exists n, (0 <= n)%Z /\ fst kc = kcat "F" n) /\
  (forall n, (0 <= n)%Z -> fst kc = kcat "F" n \/ fst kc = kcat "FMESH" n -> rc_name (snd kc) = Some n) /\
  (mesh_name (fst kc) -> exists n, (0 <= n)%Z /\ fst kc = kcat "FMESH" n).
(** a life in which every card read is parsed right, and tallies are given numbers *)
Fixpoint sound_life (l : life) : Prop :=
  match l with
  | Read cards => Forall right cards
  | Add x l => (0 <= a_id x)%Z /\ sound_life l
  | Stop _ l => sound_life l
  | Merge l o => sound_life l /\ sound_life o
  end.
(** the numbers that were read as tallies (as meshes), or added, or merged: with their repetitions *)
Fixpoint given (l : life) (ns : list Z) : Prop :=
  match l with
  | Read cards => Forall2 (fun kc n => rc_name (snd kc) = Some n) (filter (fun kc => rc_fn (snd kc)) cards) ns
  | Add x l => exists ms, given l ms /\ ns = ms ++ [a_id x]
  | Stop _ l => given l ns
  | Merge l o => exists ms ks, given l ms /\ given o ks /\ ns = ms ++ ks
  end.
Fixpoint given_meshes (l : life) (ns : list Z) : Prop :=
  match l with
  | Read cards => exists sel, Forall2 (fun kc n => rc_name (snd kc) = Some n) sel ns /\
      sel = filter (fun kc => negb (rc_fn (snd kc)) && pat_fmesh (fst kc)) cards
  | Add _ l | Stop _ l => given_meshes l ns
  | Merge l o => exists ms ks, given_meshes l ms /\ given_meshes o ks /\ ns = ms ++ ks
  end.
(** the word (in upper case) that begins the first line of a card that is neither empty nor a comment *)
Definition FirstWord (ls : list str) (k : str) : Prop := exists a l b w ws, map (filter (fun c => negb (Ascii.eqb c nl))) ls = a ++ l :: b
  /\ Forall Skipped a /\ ~ Skipped l /\ split l = w :: ws /\ k = upper w.
