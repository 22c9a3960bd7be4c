(** Specification notions for the logger. *)
From Verif Require Import M_Base M_Logger.

(** The installed handlers of exactly one type. *)
Definition of_kind (k : hkind) (g : logger) : list handler := filter (fun h => hkind_eqb (h_kind h) k) (lg_handlers g).

(** Arguments of the types one would pass: the stream handler is not exactly a
    FileHandler and the file handler not exactly a StreamHandler. *)
Definition fitting (c : call) : Prop :=
  (forall h, c_stream c = Some h -> h_kind h <> HFile) /\ (forall h, c_file c = Some h -> h_kind h <> HStream).

(** The argument supplied last in a sequence of calls. *)
Definition latest {A} (arg : call -> option A) (cs : list call) (x : option A) : Prop :=
  match x with
  | Some a => exists pre c post, cs = pre ++ c :: post /\ arg c = Some a /\ forall c', In c' post -> arg c' = None
  | None => forall c, In c cs -> arg c = None
  end.
Definition supplied (cs : list call) (h : handler) : Prop :=
  exists c, In c cs /\ (c_stream c = Some h \/ c_file c = Some h).
(** The level argument as the code reads it: 0 counts as none. *)
Definition level_arg (c : call) : option Z := match c_level c with Some 0%Z => None | x => x end.
