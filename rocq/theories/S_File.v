(** Specification of saving reports: trees of files, plain paths and what may change. *)
From Coq Require Import List String Ascii.
From Verif Require Import M_Base M_Export M_Script M_File.
Import ListNotations.
Open Scope list_scope.

(** Everything lies in a directory. *)
Definition tree_ok (t : tree) : Prop := t [] = Some Dir /\ forall p c, t (p ++ [c]) <> None -> t p = Some Dir.

(** An ordinary name of a file or directory, and the text of a path of such names. *)
Definition ordinary (n : string) : Prop :=
  n <> ""%string /\ n <> "."%string /\ n <> ".."%string /\ ~ In "/"%char (list_ascii_of_string n).
Definition path_text (rooted : bool) (dirs : list string) (name : string) : string :=
  ((if rooted then "/" else "") ++ String.concat "/" (dirs ++ [name]))%string.
Definition base (rooted : bool) (cwd : spot) : spot := if rooted then [] else cwd.

(** The tree [t'] is [t] with a directory at [made], where there was nothing, and the
    file [j] at [wrote], where there was no directory. *)
Definition changed (t t' : tree) (made wrote : option spot) (j : option xjson) : Prop :=
  (forall p, made = Some p -> t p = None) /\ (forall p, wrote = Some p -> t p <> Some Dir /\ made <> Some p /\ j <> None) /\
  forall p, t' p = match wrote, j with
                   | Some q, Some j => if spot_eqb p q then Some (File (Saved j)) else
                       match made with Some q => if spot_eqb p q then Some Dir else t p | None => t p end
                   | _, _ => match made with Some q => if spot_eqb p q then Some Dir else t p | None => t p end
                   end.
Definition same (t t' : tree) : Prop := forall p, t' p = t p.

(** A report can be saved in the directory [here] below [b]: it exists, or only it is
    missing. *)
Definition available (t : tree) (b : spot) (dirs : list string) : Prop :=
  t (b ++ dirs) = Some Dir \/ exists d x, dirs = d ++ [x] /\ t (b ++ d) = Some Dir /\ t (b ++ dirs) = None.
