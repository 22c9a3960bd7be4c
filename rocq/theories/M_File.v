(** Saving a report under a path and reading it back: lines 212-219 and 66-72 of
    gerabaldi/models/reports.py, on a tree of directories and files.  What is saved is
    in M_Export.v.

    Paths are those of POSIX.  Not modelled: symbolic links, permissions, full disks,
    names that are too long, other programs, and the current directory being removed. *)
From Coq Require Import List String Ascii Bool.
From Verif Require Import M_Base M_Export M_Script.
Import ListNotations.
Open Scope list_scope.

(** A place is the list of names that leads to it from the root. *)
Inductive node := Dir | File (c : content).
Definition spot := list string.
Definition spot_eqb (p q : spot) : bool := if list_eq_dec string_dec p q then true else false.
Definition tree := spot -> option node.
Definition put (t : tree) (p : spot) (n : node) : tree := fun q => if spot_eqb q p then Some n else t q.
Inductive oserr := NoEntry (* FileNotFoundError *) | NotDir (* NotADirectoryError *) | Exists (* FileExistsError *) | IsDir (* IsADirectoryError *).

Definition slash : ascii := "/"%char.
(** s.split('/') *)
Fixpoint pieces (s : string) : list string :=
  match s with
  | EmptyString => [EmptyString]
  | String c r => if Ascii.eqb c slash then EmptyString :: pieces r
                  else match pieces r with p :: ps => String c p :: ps | [] => [] end
  end.
(** s.rpartition('/'); [None] if there is no slash *)
Fixpoint rpart (s : string) : option (string * string) :=
  match s with
  | EmptyString => None
  | String c r => match rpart r with
                  | Some (a, b) => Some (String c a, b)
                  | None => if Ascii.eqb c slash then Some (EmptyString, r) else None
                  end
  end.
Definition dir_part (s : string) : string := match rpart s with Some (a, _) => a | None => EmptyString end.
Definition last_part (s : string) : string := match rpart s with Some (_, b) => b | None => s end.
Definition absolute (s : string) : bool := match s with String c _ => Ascii.eqb c slash | EmptyString => false end.
(** The names in a path: empty ones and '.' do not count. *)
Definition names (s : string) : list string :=
  filter (fun p => negb (String.eqb p "" || String.eqb p ".")) (pieces s).

(** Follow names from a directory; all places on the way have to be directories, the
    last one need not exist. *)
Fixpoint walk (t : tree) (p : spot) (l : list string) : spot + oserr :=
  match l with
  | [] => inl p
  | c :: r => match t p with
              | None => inr NoEntry
              | Some (File _) => inr NotDir
              | Some Dir => walk t (if String.eqb c ".." then removelast p else p ++ [c]) r
              end
  end.

Section Os.
(** the current directory *)
Variable cwd : spot.
Definition start (s : string) : spot := if absolute s then [] else cwd.

(** Path(s).mkdir(exist_ok=True): an error is raised unless the place is a directory
    then. *)
Definition mkdir (t : tree) (s : string) : tree + oserr :=
  match walk t (start s) (names s) with
  | inr e => inr e
  | inl p => match t p with
             | None => inl (put t p Dir)
             | Some Dir => inl t
             | Some (File _) => inr Exists
             end
  end.

(** What open has to find: the directory and the name in it.  (For a path that ends in
    a slash or '.' the system gives other errors if the directory does not exist.
    export_to_json has made it before, and reading treats all the same.) *)
Definition locate (t : tree) (s : string) : spot + oserr :=
  match walk t (if absolute s then [] else cwd) (names (dir_part s)) with
  | inr e => inr e
  | inl p => match t p with
             | None => inr NoEntry
             | Some (File _) => inr NotDir
             | Some Dir =>
                 let n := last_part s in
                 if String.eqb n "" || String.eqb n "." || String.eqb n ".." then inr IsDir else inl (p ++ [n])
             end
  end.
(** open(s, 'w') and json.dump *)
Definition open_write (t : tree) (s : string) (j : xjson) : tree + oserr :=
  match locate t s with
  | inr e => inr e
  | inl p => match t p with Some Dir => inr IsDir | _ => inl (put t p (File (Saved j))) end
  end.
(** open(s) *)
Definition open_read (t : tree) (s : string) : content + oserr :=
  match locate t s with
  | inr e => inr e
  | inl p => match t p with Some Dir => inr IsDir | Some (File c) => inl c | None => inr NoEntry end
  end.

(** export_to_json, lines 170-220: a value is returned in any case; None and the empty
    string are no file. *)
Inductive saving := Returned (j : xjson) | Raises (e : exn) | RaisesOs (o : oserr).
Definition export_file (x : xreport) (file : option string) (time_unit : option string) (t : tree) : saving * tree :=
  match export_to_json x time_unit with
  | Err e => (Raises e, t)
  | Ok j =>
      match file with
      | None | Some EmptyString => (Returned j, t)
      | Some s =>
          match mkdir t (dir_part s) with
          | inr o => (RaisesOs o, t)
          | inl t1 => match open_write t1 s j with
                      | inr o => (RaisesOs o, t1)
                      | inl t2 => (Returned j, t2)
                      end
          end
      end
  end.

(** Saving reports one after the other in hours: lines 175-177 of
    vts_paper_presilicon_variability.py and 195-197 of
    vts_paper_tddb_model_sensitivity.py.  [None]: no exception. *)
Fixpoint export_each (l : list (string * xreport)) (t : tree) : option (exn + oserr) * tree :=
  match l with
  | [] => (None, t)
  | (s, x) :: r => match export_file x (Some s) (Some "hours"%string) t with
                   | (Returned _, t') => export_each r t'
                   | (Raises e, t') => (Some (inl e), t')
                   | (RaisesOs o, t') => (Some (inr o), t')
                   end
  end.
End Os.
