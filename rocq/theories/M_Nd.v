(** numpy arrays: a shape and row-major data.  dtypes are not modelled. *)
From Verif Require Export M_Num.
Open Scope nat_scope.

Record nd (V : Type) := Nd { nshape : list nat; ndata : list V }.
Arguments Nd {V} _ _.  Arguments nshape {V} _.  Arguments ndata {V} _.

Definition prod (s : list nat) : nat := fold_right Nat.mul 1 s.

(** All multi-indices of a shape in row-major (C) order. *)
Fixpoint indices (s : list nat) : list (list nat) :=
  match s with
  | [] => [[]]
  | n :: r => flat_map (fun i => map (cons i) (indices r)) (seq 0 n)
  end.

(** Position of a multi-index in the row-major data. *)
Fixpoint flat (s idx : list nat) : nat :=
  match s, idx with
  | _ :: r, i :: j => i * prod r + flat r j
  | _, _ => 0
  end.

Section Nd.
Context {V : Type} `{NumOps V}.

(** Element access; only used with indices inside the shape. *)
Definition aget (a : nd V) (idx : list nat) : V := nth (flat (nshape a) idx) (ndata a) n0.

(** Array of shape [s] with element [f idx] at [idx]. *)
Definition nbuild (s : list nat) (f : list nat -> V) : nd V := Nd s (map f (indices s)).

(** np.full(s, v) *)
Definition nfull (s : list nat) (v : V) : nd V := nbuild s (fun _ => v).

(** Broadcast of two shapes, on the reversed lists (numpy aligns at the right). *)
Fixpoint bshape_rev (s t : list nat) : option (list nat) :=
  match s, t with
  | [], _ => Some t
  | _, [] => Some s
  | a :: s', b :: t' =>
      match bshape_rev s' t' with
      | None => None
      | Some r => if a =? b then Some (a :: r)
                  else if a =? 1 then Some (b :: r)
                  else if b =? 1 then Some (a :: r)
                  else None
      end
  end.
Definition bshape (s t : list nat) : option (list nat) :=
  option_map (@rev nat) (bshape_rev (rev s) (rev t)).

(** The element of an array of shape [s] that is seen at position [idx] of the
    broadcast result. *)
Fixpoint bproj0 (s idx : list nat) : list nat :=
  match s, idx with
  | d :: s', i :: idx' => (if d =? 1 then 0 else i) :: bproj0 s' idx'
  | _, _ => []
  end.
Definition bproj (s idx : list nat) : list nat := bproj0 s (skipn (length idx - length s) idx).

Definition bget (a : nd V) (idx : list nat) : V := aget a (bproj (nshape a) idx).

(** A binary ufunc: broadcasting failure is ValueError. *)
Definition bmap2 (f : V -> V -> V) (a b : nd V) : res (nd V) :=
  match bshape (nshape a) (nshape b) with
  | None => Err ValueError
  | Some s => Ok (nbuild s (fun idx => f (bget a idx) (bget b idx)))
  end.

(** A ternary elementwise operation such as np.where *)
Definition bmap3 (f : V -> V -> V -> V) (a b c : nd V) : res (nd V) :=
  match bshape (nshape a) (nshape b) with
  | None => Err ValueError
  | Some s =>
      match bshape s (nshape c) with
      | None => Err ValueError
      | Some t => Ok (nbuild t (fun idx => f (bget a idx) (bget b idx) (bget c idx)))
      end
  end.

Definition amap (f : V -> V) (a : nd V) : nd V := Nd (nshape a) (map f (ndata a)).

(** a.reshape(s) *)
Definition nreshape (s : list nat) (a : nd V) : res (nd V) :=
  if prod s =? length (ndata a) then Ok (Nd s (ndata a)) else Err ValueError.

(** np.full(s, a): the fill value is broadcast to the shape. *)
Definition nfull_arr (s : list nat) (a : nd V) : res (nd V) :=
  match bshape (nshape a) s with
  | Some t => if list_eq_dec Nat.eq_dec t s then Ok (nbuild s (bget a)) else Err ValueError
  | None => Err ValueError
  end.

(** np.expand_dims(a, axis=-1) *)
Definition nexpand (a : nd V) : nd V := Nd (nshape a ++ [1]) (ndata a).

(** a[i] on the first axis; IndexError on rank 0 or out of range. *)
Definition nsub1 (a : nd V) (i : nat) : res (nd V) :=
  match nshape a with
  | [] => Err IndexError
  | n :: r => if i <? n then Ok (Nd r (firstn (prod r) (skipn (i * prod r) (ndata a))))
              else Err IndexError
  end.

(** a[:k] on the first axis *)
Definition nslice_first (k : nat) (a : nd V) : res (nd V) :=
  match nshape a with
  | [] => Err IndexError
  | n :: r => Ok (Nd (Nat.min k n :: r) (firstn (Nat.min k n * prod r) (ndata a)))
  end.

(** a[:, :, :k]; IndexError when the rank is below 3 *)
Definition nslice_third (k : nat) (a : nd V) : res (nd V) :=
  match nshape a with
  | x :: y :: z :: r => Ok (nbuild (x :: y :: Nat.min k z :: r) (aget a))
  | _ => Err IndexError
  end.
End Nd.

(** Values handled by equations.  [PNum]: Python int/float or numpy float64.
    [POth]: a scalar of any other type (numpy integers, bool), which arithmetic
    accepts but _get_single_index drops.  Lists are not modelled. *)
Inductive pyval (V : Type) :=
| PNum (v : V)
| POth (v : V)
| PArr (a : nd V)
| PDict (d : list (string * pyval V)).
Arguments PNum {V} _.  Arguments POth {V} _.  Arguments PArr {V} _.  Arguments PDict {V} _.

Section PyVal.
Context {V : Type} `{NumOps V}.

(** Operand of numpy arithmetic; a scalar has shape (). *)
Definition to_nd (p : pyval V) : res (nd V) :=
  match p with
  | PNum v | POth v => Ok (Nd [] [v])
  | PArr a => Ok a
  | PDict _ => Err Unmodelled
  end.

(** numpy returns scalars, not 0-d arrays, from arithmetic. *)
Definition of_nd (a : nd V) : pyval V :=
  match nshape a, ndata a with
  | [], [v] => PNum v
  | _, _ => PArr a
  end.

Definition pmap2 (f : V -> V -> V) (x y : pyval V) : res (pyval V) :=
  rbind (to_nd x) (fun a => rbind (to_nd y) (fun b =>
    rbind (bmap2 f a b) (fun c => Ok (of_nd c)))).

Definition pmap3 (f : V -> V -> V -> V) (x y z : pyval V) : res (pyval V) :=
  rbind (to_nd x) (fun a => rbind (to_nd y) (fun b => rbind (to_nd z) (fun c =>
    rbind (bmap3 f a b c) (fun d => Ok (of_nd d))))).

Definition pmap (f : V -> V) (x : pyval V) : res (pyval V) :=
  rbind (to_nd x) (fun a => Ok (of_nd (amap f a))).
End PyVal.
