(** Numeric carrier.  The model is generic in the type of numbers (Python/numpy
    floats): it uses the operations below and assumes no law about them, so a
    theorem that is generic in [NumOps] also holds of IEEE arithmetic.  Theorems
    that need arithmetic are stated at one of the instances. *)
From Coq Require Import QArith Qround Qabs.
From Verif Require Export M_Base.
Open Scope Z_scope.

Class NumOps (V : Type) := {
  nadd : V -> V -> V;
  nsub : V -> V -> V;
  nmul : V -> V -> V;
  ndiv : V -> V -> V;
  nneg : V -> V;
  nabs : V -> V;
  nltb : V -> V -> bool;            (* x < y *)
  nleb : V -> V -> bool;            (* x <= y *)
  neqb : V -> V -> bool;            (* x == y *)
  nofQ : Q -> V;                    (* a literal *)
  nisinf : V -> bool;               (* np.isinf *)
  nposinf : V -> bool;              (* x == np.inf *)
  nflog10 : V -> option Z;          (* floor(log10(abs(x))); None: ValueError (NaN, 0) *)
  nround : V -> Z -> V;             (* np.round(x, decimals) *)
  nsqrt : V -> V;                   (* x ** 0.5 *)
  nlog10 : V -> V;                  (* np.log10 *)
  npow10 : V -> V                   (* 10 ** x *)
}.

Definition n0 {V} `{NumOps V} : V := nofQ 0.
Definition n1 {V} `{NumOps V} : V := nofQ 1.

(** Exact rationals, used to compute examples and refutation witnesses.
    [nsqrt], [nlog10] and [npow10] are only approximations at this instance and
    no theorem is stated about them there. *)
Definition q_ltb (x y : Q) : bool := match Qcompare x y with Lt => true | _ => false end.
Definition q_leb (x y : Q) : bool := match Qcompare x y with Gt => false | _ => true end.
Definition q_eqb (x y : Q) : bool := match Qcompare x y with Eq => true | _ => false end.

(** Round half to even to an integer. *)
Definition q_rint (q : Q) : Z :=
  let f := Qnum q / Z.pos (Qden q) in
  let r := Qnum q mod Z.pos (Qden q) in
  match Z.compare (2 * r) (Z.pos (Qden q)) with
  | Lt => f
  | Gt => f + 1
  | Eq => if Z.even f then f else f + 1
  end.

Definition q_pow10 (z : Z) : Q := Qpower 10 z.

(** floor(log10 |x|) by search from the digit counts of numerator and denominator *)
Fixpoint q_flog10_up (fuel : nat) (x : Q) (e : Z) : Z :=
  match fuel with
  | O => e
  | S k => if q_leb (q_pow10 (e + 1)) x then q_flog10_up k x (e + 1) else e
  end.
Definition q_flog10 (x : Q) : option Z :=
  let a := Qabs x in
  if q_eqb a 0 then None
  else
    let lo := - (Z.log2_up (Z.pos (Qden a)) + 1) in
    Some (q_flog10_up (Z.to_nat (Z.log2_up (Z.abs (Qnum a)) - lo + 2)) a lo).

Definition q_sqrt (x : Q) : Q :=
  Qred (Z.sqrt (Qnum x * 10 ^ 40 / Z.pos (Qden x)) # (Z.to_pos (10 ^ 20))).

#[global] Instance QOps : NumOps Q := {
  nadd x y := Qred (x + y);
  nsub x y := Qred (x - y);
  nmul x y := Qred (x * y);
  ndiv x y := Qred (x / y);
  nneg x := Qred (- x);
  nabs x := Qred (Qabs x);
  nltb := q_ltb;
  nleb := q_leb;
  neqb := q_eqb;
  nofQ x := Qred x;
  nisinf _ := false;
  nposinf _ := false;
  nflog10 := q_flog10;
  nround x d := Qred (inject_Z (q_rint (x * q_pow10 d)) / q_pow10 d);
  nsqrt := q_sqrt;
  nlog10 x := match q_flog10 x with Some e => inject_Z e | None => 0%Q end;
  npow10 x := q_pow10 (Qfloor x)
}.
