(** Lemmas about tables of measurements. *)
From Coq Require Import Lia Arith.
From Verif Require Import M_Base M_Num M_Nd M_Time M_TestSpec M_Report L_Base L_Nd S_Report.
Open Scope nat_scope.

Lemma length_tile l n : length (np_tile l n) = n * length l.
Proof. unfold np_tile. induction n as [|n IH]; cbn [repeat concat]; [reflexivity|]. rewrite app_length, IH. lia. Qed.
Lemma length_repeat' l n : length (np_repeat l n) = length l * n.
Proof. unfold np_repeat. apply flat_map_const_length. intros. apply repeat_length. Qed.
Lemma nth_tile l : forall n i j, i < n -> j < length l -> nth_error (np_tile l n) (i * length l + j) = nth_error l j.
Proof.
  unfold np_tile. induction n as [|n IH]; intros i j Hi Hj; [lia|]. cbn [repeat concat]. destruct i as [|i].
  - now rewrite nth_error_app1.
  - rewrite nth_error_app2 by (cbn; lia). rewrite <- (IH i j) by lia. f_equal. cbn. lia.
Qed.
Lemma nth_repeat' l n i j x : nth_error l i = Some x -> j < n -> nth_error (np_repeat l n) (i * n + j) = Some x.
Proof.
  intros E Hj. unfold np_repeat. rewrite (nth_error_flat_map _ _ n i j x); [|intros; apply repeat_length|auto|auto].
  clear E. revert j Hj. induction n; intros [|j] Hj; cbn; try lia; auto. apply IHn. lia.
Qed.

Lemma decompose3 L C D k : k < L * C * D -> exists l c d, l < L /\ c < C /\ d < D /\ k = (l * C + c) * D + d.
Proof.
  intros Hk. assert (D <> 0) by (intros ->; lia). assert (C <> 0) by (intros ->; lia).
  exists (k / D / C), (k / D mod C), (k mod D). pose proof (Nat.div_mod k D ltac:(auto)). pose proof (Nat.div_mod (k / D) C ltac:(auto)).
  pose proof (Nat.mod_upper_bound k D ltac:(auto)). pose proof (Nat.mod_upper_bound (k / D) C ltac:(auto)).
  repeat split; auto; [|nia]. apply Nat.div_lt_upper_bound; auto. apply Nat.div_lt_upper_bound; auto. nia.
Qed.
Lemma below3 L C D l c d : l < L -> c < C -> d < D -> (l * C + c) * D + d < L * C * D.
Proof. intros. assert (l * C + c + 1 <= L * C) by nia. nia. Qed.
Lemma unique3 C D l c d l' c' d' : c < C -> d < D -> c' < C -> d' < D -> (l * C + c) * D + d = (l' * C + c') * D + d' -> l = l' /\ c = c' /\ d = d'.
Proof.
  intros Hc Hd Hc' Hd' E.
  assert (l * C + c = l' * C + c' /\ d = d') as [E1 ->].
  { assert (A : forall x y, x < D -> forall a b, a * D + x = b * D + y -> y < D -> a = b).
    { intros x y Hx a b Hab Hy. destruct (Nat.lt_trichotomy a b) as [G|[G|G]]; auto; exfalso; nia. }
    assert (l * C + c = l' * C + c') by (eapply (A d d'); eauto). split; auto. nia. }
  destruct (Nat.lt_trichotomy l l') as [G|[G|G]]; [exfalso; nia| |exfalso; nia]. repeat split; auto. nia.
Qed.

Section L.
Context {V : Type} `{NumOps V}.

Lemma zip_length prm stp time : forall dev chp lot (vals : list V), length chp = length dev -> length lot = length dev -> length vals = length dev ->
  length (zip_rows prm stp time dev chp lot vals) = length dev.
Proof. induction dev as [|x dev IH]; intros [|c chp] [|l lot] [|v vals]; cbn; try discriminate; auto; intros; f_equal; apply IH; lia. Qed.
Lemma zip_nth prm stp time : forall dev chp lot (vals : list V) k d c l v,
  nth_error dev k = Some d -> nth_error chp k = Some c -> nth_error lot k = Some l -> nth_error vals k = Some v ->
  nth_error (zip_rows prm stp time dev chp lot vals) k = Some (Row prm stp (Some d) (Some c) (Some l) time v).
Proof.
  induction dev as [|x dev IH]; intros [|y chp] [|z lot] [|u vals] [|k] d c l v; cbn; try discriminate; auto; try congruence.
Qed.

Lemma layout_dims s L C D : layout s L C D <-> (meas_dims s = Ok (L, C, D) /\ length s <= 3).
Proof.
  split.
  - intros []; cbn; auto.
  - intros [E Hl]. destruct s as [|a [|b [|c [|x s]]]]; cbn in *; try discriminate; try lia; injection E as <- <- <-; constructor.
Qed.
Lemma format_param a prm time stp L C D : layout (nshape a) L C D -> length (ndata a) = L * C * D ->
  exists rows : list (row V), format_measurements (PArr a) prm time stp true = Ok rows /\ length rows = L * C * D /\
    forall l c d, l < L -> c < C -> d < D -> exists v, at3 C D (ndata a) l c d v /\
      nth_error rows ((l * C + c) * D + d) = Some (Row prm stp (Some d) (Some c) (Some l) time v).
Proof.
  intros Ly Hn. apply layout_dims in Ly as [Ld _]. unfold format_measurements. cbn [to_nd rbind]. rewrite Ld. cbn [rbind]. unfold nreshape.
  replace (prod [D * C * L]) with (length (ndata a)) by (cbn; lia). rewrite Nat.eqb_refl. cbn [rbind ndata].
  eexists. split; [reflexivity|]. split.
  - rewrite zip_length; rewrite ?length_tile, ?length_repeat', ?seq_length; lia.
  - intros l c d Hl Hc Hd. pose proof (below3 L C D l c d Hl Hc Hd) as B.
    destruct (nth_error (ndata a) ((l * C + c) * D + d)) as [v|] eqn:Ev; [|apply nth_error_None in Ev; lia].
    exists v. split; [exact Ev|]. apply zip_nth; auto.
    + pose proof (nth_tile (seq 0 D) (C * L) (l * C + c) d) as T. rewrite seq_length in T. rewrite T by nia. now rewrite nth_error_seq.
    + pose proof (nth_tile (np_repeat (seq 0 C) D) L l (c * D + d)) as T. rewrite length_repeat', seq_length in T.
      replace ((l * C + c) * D + d) with (l * (C * D) + (c * D + d)) by ring. rewrite T by nia. apply nth_repeat'; auto. now rewrite nth_error_seq.
    + replace ((l * C + c) * D + d) with (l * (D * C) + (c * D + d)) by ring. apply nth_repeat'; [|nia]. now rewrite nth_error_seq.
Qed.
Lemma format_rows a prm time stp L C D (rows : list (row V)) : layout (nshape a) L C D -> length (ndata a) = L * C * D ->
  format_measurements (PArr a) prm time stp true = Ok rows ->
  (forall r, In r rows -> exists l c d v, l < L /\ c < C /\ d < D /\ at3 C D (ndata a) l c d v /\ r = Row prm stp (Some d) (Some c) (Some l) time v) /\
  NoDup (map labels rows).
Proof.
  intros Ly Hn E. destruct (format_param a prm time stp L C D Ly Hn) as (rows' & E' & Hr & G). rewrite E in E'. injection E' as <-. split.
  - intros r Hin. apply In_nth_error in Hin as [k Hk]. assert (k < L * C * D) by (rewrite <- Hr; apply nth_error_Some; congruence).
    destruct (decompose3 L C D k ltac:(auto)) as (l & c & d & Hl & Hc & Hd & ->). destruct (G l c d Hl Hc Hd) as (v & Hv & Hx).
    rewrite Hx in Hk. injection Hk as <-. exists l, c, d, v. auto.
  - apply NoDup_nth_error. rewrite map_length, Hr. intros i j Hi E2. rewrite !nth_error_map in E2.
    destruct (decompose3 L C D i Hi) as (l & c & d & Hl & Hc & Hd & ->). destruct (G l c d Hl Hc Hd) as (v & Hv & Hx).
    destruct (Nat.lt_ge_cases j (L * C * D)) as [Hj|Hj].
    2:{ rewrite Hx in E2. cbn [option_map] in E2. destruct (nth_error rows j) eqn:En; [|discriminate]. exfalso. assert (j < length rows) by (apply nth_error_Some; congruence). lia. }
    destruct (decompose3 L C D j Hj) as (l' & c' & d' & Hl' & Hc' & Hd' & ->). destruct (G l' c' d' Hl' Hc' Hd') as (v' & Hv' & Hx').
    rewrite Hx, Hx' in E2. cbn in E2. injection E2 as -> -> ->. reflexivity.
Qed.
Lemma format_cond a prm time stp L C D : layout (nshape a) L C D -> length (ndata a) = L * C * D ->
  format_measurements (PArr a) prm time stp false = Ok (map (fun v : V => Row prm stp None None None time v) (ndata a)).
Proof.
  intros Ly Hn. apply layout_dims in Ly as [Ld _]. unfold format_measurements. cbn [to_nd rbind]. rewrite Ld. cbn [rbind]. unfold nreshape.
  replace (prod [D * C * L]) with (length (ndata a)) by (cbn; lia). rewrite Nat.eqb_refl. reflexivity.
Qed.
Lemma format_other (p : pyval V) prm time stp b : (forall a, p <> PArr a) -> format_measurements p prm time stp b = Err IndexError.
Proof. intros N. destruct p as [v|v|a|d]; [reflexivity|reflexivity|exfalso; now apply (N a)|reflexivity]. Qed.
Lemma format_rank4 a prm time stp b n r : nshape a = n :: r -> 3 <= length r -> length (ndata a) = prod (n :: r) -> n <> 0 -> prod r <> 1 ->
  format_measurements (V := V) (PArr a) prm time stp b = Err ValueError.
Proof.
  intros E Hr Hn Nn N1. unfold format_measurements. cbn [to_nd rbind]. rewrite E. destruct r as [|x [|y [|z r]]]; cbn [length] in Hr; try lia. cbn [meas_dims rbind].
  unfold nreshape. rewrite Hn. destruct (Nat.eqb_spec (prod [n * 1 * 1]) (prod (n :: x :: y :: z :: r))) as [X|X]; [|reflexivity]. exfalso.
  cbn [prod fold_right] in X. change (fold_right Nat.mul 1) with prod in X. fold (prod (x :: y :: z :: r)) in N1. set (q := prod (x :: y :: z :: r)) in *.
  replace (n * (x * (y * (z * prod r)))) with (n * q) in X by reflexivity. nia.
Qed.
End L.
