(** The package logger (gerabaldi/helpers.py lines 39-94).
    Only what [configure_logger] reads and writes is modelled: the level and the
    handler list.  Handlers are objects: an identity and their exact type. *)
From Verif Require Export M_Base.

(** [type(handler) is logging.StreamHandler], [type(handler) is logging.FileHandler],
    or any other class.  coloredlogs' StandardErrorHandler, RotatingFileHandler and
    every user subclass are of other classes. *)
Inductive hkind := HStream | HFile | HOther.
Record handler := Handler { h_id : nat; h_kind : hkind }.
Record logger := Logger { lg_level : Z; lg_handlers : list handler }.

Definition hkind_eqb (a b : hkind) : bool :=
  match a, b with HStream, HStream => true | HFile, HFile => true | HOther, HOther => true | _, _ => false end.
Definition handler_eqb (a b : handler) : bool := Nat.eqb (h_id a) (h_id b) && hkind_eqb (h_kind a) (h_kind b).

(** logging.Logger.removeHandler: [if hdlr in self.handlers: self.handlers.remove(hdlr)] *)
Fixpoint remove_handler (h : handler) (l : list handler) : list handler :=
  match l with
  | [] => []
  | x :: r => if handler_eqb x h then r else x :: remove_handler h r
  end.
(** logging.Logger.addHandler: [if not (hdlr in self.handlers): self.handlers.append(hdlr)] *)
Definition add_handler (h : handler) (l : list handler) : list handler :=
  if existsb (fun x => handler_eqb x h) l then l else l ++ [h].

(** lines 76-82: the last handler of each exact type *)
Definition find_existing (l : list handler) : option handler * option handler :=
  fold_left (fun acc x =>
    match h_kind x with
    | HStream => (Some x, snd acc)
    | HFile => (fst acc, Some x)
    | HOther => acc
    end) l (None, None).

(** lines 85-88 and 90-93 *)
Definition install (existing : option handler) (new : option handler) (l : list handler) : list handler :=
  match new with
  | None => l
  | Some h => add_handler h (match existing with Some x => remove_handler x l | None => l end)
  end.

(** One call; a level of None or 0 is false in [if logging_level]. *)
Record call := Call { c_level : option Z; c_file : option handler; c_stream : option handler }.

(** configure_logger, lines 39-94; the level argument is an int, for which
    [Logger.setLevel] does not fail. *)
Definition configure (g : logger) (c : call) : logger :=
  let lvl := match c_level c with
             | Some z => if Z.eqb z 0 then lg_level g else z
             | None => lg_level g
             end in
  let '(es, ef) := find_existing (lg_handlers g) in
  Logger lvl (install ef (c_file c) (install es (c_stream c) (lg_handlers g))).

Definition configure_all (g : logger) (cs : list call) : logger := fold_left configure cs g.
