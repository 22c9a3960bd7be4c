(** Lemmas about arrays, indexing and broadcasting. *)
From Verif Require Import M_Base M_Num M_Nd.
From Coq Require Import PeanoNat.
Open Scope nat_scope.

(** [idx] is a position inside shape [s]. *)
Definition valid (s idx : list nat) : Prop := Forall2 (fun i n => i < n) idx s.

Lemma valid_nil : valid [] [].
Proof. constructor. Qed.
Lemma valid_cons n s i idx : valid (n :: s) (i :: idx) <-> i < n /\ valid s idx.
Proof. split; intros H. inversion H; subst; auto. destruct H; constructor; auto. Qed.
Lemma valid_length s idx : valid s idx -> length idx = length s.
Proof. intros H. induction H; cbn; auto. Qed.
Lemma valid3 L C D l c d : valid [L; C; D] [l; c; d] <-> l < L /\ c < C /\ d < D.
Proof. rewrite !valid_cons. intuition. constructor. Qed.
Lemma valid3_inv L C D idx : valid [L; C; D] idx ->
  exists l c d, idx = [l; c; d] /\ l < L /\ c < C /\ d < D.
Proof.
  intros H. inversion H as [|l ? i1 ? Hl H1]; subst. inversion H1 as [|c ? i2 ? Hc H2]; subst.
  inversion H2 as [|d ? i3 ? Hd H3]; subst. inversion H3; subst. eauto 8.
Qed.

Lemma In_indices s idx : In idx (indices s) <-> valid s idx.
Proof.
  revert idx. induction s as [|n r IH]; intros idx; cbn [indices].
  - split; intros H. destruct H as [<-|[]]; constructor. inversion H; now left.
  - rewrite in_flat_map. split.
    + intros (i & Hi & Hin). apply in_seq in Hi. apply in_map_iff in Hin as (j & <- & Hj).
      apply IH in Hj. constructor; auto; lia.
    + intros H. inversion H as [|i ? j ? Hi Hj]; subst. exists i. split. apply in_seq; lia.
      apply in_map_iff. exists j. split; auto. now apply IH.
Qed.

Lemma flat_map_const_length {A B} (f : A -> list B) l k :
  (forall x, In x l -> length (f x) = k) -> length (flat_map f l) = length l * k.
Proof.
  induction l as [|x r IH]; cbn; auto. intros H. rewrite app_length, IH, H; auto.
Qed.

Lemma length_indices s : length (indices s) = prod s.
Proof.
  induction s as [|n r IH]; cbn [indices prod fold_right]; auto.
  rewrite (flat_map_const_length _ _ (prod r)).
  - now rewrite seq_length.
  - intros x _. now rewrite map_length.
Qed.

Lemma flat_lt s idx : valid s idx -> flat s idx < prod s.
Proof.
  intros H. induction H as [|i n idx s Hi _ IH]; cbn [flat prod fold_right]; [lia|].
  fold (prod s). nia.
Qed.

Lemma nth_error_flat_map {A B} (f : A -> list B) l k i j x :
  (forall x, In x l -> length (f x) = k) -> nth_error l i = Some x -> j < k ->
  nth_error (flat_map f l) (i * k + j) = nth_error (f x) j.
Proof.
  revert i. induction l as [|y r IH]; intros i Hk Hi Hj; [destruct i; discriminate|].
  cbn [flat_map]. destruct i as [|i]; cbn [nth_error] in Hi.
  - inversion Hi; subst. cbn. rewrite nth_error_app1; auto. rewrite Hk; [auto|now left].
  - rewrite nth_error_app2 by (rewrite Hk by (now left); lia). rewrite Hk by (now left).
    replace (S i * k + j - k) with (i * k + j) by lia. apply IH; auto.
    intros; apply Hk; now right.
Qed.

Lemma nth_error_seq s n i : i < n -> nth_error (seq s n) i = Some (s + i).
Proof.
  revert s i. induction n as [|n IH]; intros s i Hi; [lia|]. destruct i as [|i]; cbn [seq nth_error].
  - f_equal; lia.
  - rewrite IH by lia. f_equal; lia.
Qed.

Lemma nth_error_indices s idx : valid s idx -> nth_error (indices s) (flat s idx) = Some idx.
Proof.
  intros H. induction H as [|i n idx s Hi Hv IH]; cbn [indices flat]; auto.
  rewrite (nth_error_flat_map _ _ (prod s) i _ i).
  - now apply map_nth_error.
  - intros x _. rewrite map_length. apply length_indices.
  - rewrite nth_error_seq; auto.
  - now apply flat_lt.
Qed.

Section Get.
Context {V : Type} `{NumOps V}.
Implicit Types a b : nd V.

Definition awf a : Prop := length (ndata a) = prod (nshape a).

Lemma awf_nbuild s (f : list nat -> V) : awf (nbuild s f).
Proof. unfold awf, nbuild; cbn. now rewrite map_length, length_indices. Qed.

Lemma nshape_nbuild s (f : list nat -> V) : nshape (nbuild s f) = s.
Proof. reflexivity. Qed.

Lemma aget_nbuild s (f : list nat -> V) idx : valid s idx -> aget (nbuild s f) idx = f idx.
Proof.
  intros Hv. unfold aget, nbuild; cbn. apply nth_error_nth.
  apply map_nth_error. now apply nth_error_indices.
Qed.

Lemma nbuild_ext s (f g : list nat -> V) :
  (forall idx, valid s idx -> f idx = g idx) -> nbuild s f = nbuild s g.
Proof.
  intros Hfg. unfold nbuild. f_equal. apply map_ext_in. intros idx Hin. apply Hfg.
  now apply In_indices.
Qed.

Lemma map_nth_seq (l : list V) d : map (fun i => nth i l d) (seq 0 (length l)) = l.
Proof.
  induction l as [|x r IH]; cbn [length seq map nth]; auto. f_equal.
  rewrite <- seq_shift, map_map. exact IH.
Qed.

Lemma flat_indices s : map (flat s) (indices s) = seq 0 (prod s).
Proof.
  apply nth_ext with (d := 0) (d' := 0).
  - now rewrite map_length, length_indices, seq_length.
  - intros n Hn. rewrite map_length, length_indices in Hn.
    rewrite seq_nth by lia. revert n Hn.
    induction s as [|k r IH]; intros n Hn; cbn [prod fold_right] in Hn.
    + cbn. destruct n; [auto|lia].
    + fold (prod r) in Hn. assert (Hp : prod r <> 0) by (intros E; rewrite E in Hn; lia).
      assert (Hq : n = (n / prod r) * prod r + n mod prod r) by (rewrite Nat.mul_comm; apply Nat.div_mod; auto).
      assert (Hm : n mod prod r < prod r) by (apply Nat.mod_upper_bound; auto).
      assert (Hd : n / prod r < k) by (apply Nat.div_lt_upper_bound; lia).
      apply nth_error_nth. specialize (IH _ Hm).
      assert (Hj : exists j, nth_error (indices r) (n mod prod r) = Some j).
      { destruct (nth_error (indices r) (n mod prod r)) eqn:E; eauto.
        apply nth_error_None in E. rewrite length_indices in E. lia. }
      destruct Hj as [j Hj].
      rewrite (nth_error_nth _ _ _ (map_nth_error (flat r) _ _ Hj)) in IH.
      rewrite (map_nth_error (flat (k :: r)) n (indices (k :: r)) (d := n / prod r :: j)).
      * cbn [flat]. f_equal. lia.
      * cbn [indices]. rewrite Hq at 1.
        rewrite (nth_error_flat_map _ _ (prod r) (n / prod r) _ (n / prod r)); auto.
        -- now apply map_nth_error.
        -- intros x _. rewrite map_length. apply length_indices.
        -- now rewrite nth_error_seq.
Qed.

Lemma nbuild_aget a : awf a -> nbuild (nshape a) (aget a) = a.
Proof.
  unfold awf, nbuild, aget. destruct a as [s l]; cbn [nshape ndata]. intros Hl. f_equal.
  rewrite <- (map_map (flat s) (fun i => nth i l n0)), flat_indices, <- Hl. apply map_nth_seq.
Qed.

Lemma nd_ext a b : awf a -> awf b -> nshape a = nshape b ->
  (forall idx, valid (nshape a) idx -> aget a idx = aget b idx) -> a = b.
Proof.
  intros Ha Hb Hs Hg. rewrite <- (nbuild_aget a Ha), <- (nbuild_aget b Hb), <- Hs.
  apply nbuild_ext. auto.
Qed.

Lemma ndata_aget a idx : awf a -> valid (nshape a) idx ->
  nth_error (ndata a) (flat (nshape a) idx) = Some (aget a idx).
Proof.
  intros Ha Hv. unfold aget. apply nth_error_nth'. rewrite Ha. now apply flat_lt.
Qed.

Lemma awf_amap f a : awf a -> awf (amap f a).
Proof. unfold awf, amap; cbn. now rewrite map_length. Qed.

Lemma aget_amap f a idx : awf a -> valid (nshape a) idx -> aget (amap f a) idx = f (aget a idx).
Proof.
  intros Ha Hv. pose proof (ndata_aget a idx Ha Hv) as E.
  unfold aget at 1. cbn. apply nth_error_nth. now apply map_nth_error.
Qed.

(** Broadcasting *)
Lemma bshape_rev_same s : bshape_rev s s = Some s.
Proof. induction s as [|n r IH]; cbn; auto. now rewrite IH, Nat.eqb_refl. Qed.

Lemma bshape_same s : bshape s s = Some s.
Proof. unfold bshape. rewrite bshape_rev_same. cbn. now rewrite rev_involutive. Qed.

Lemma bshape_nil_l s : bshape [] s = Some s.
Proof. unfold bshape. cbn. now rewrite rev_involutive. Qed.

Lemma bshape_nil_r s : bshape s [] = Some s.
Proof.
  unfold bshape. cbn [rev]. destruct (rev s) eqn:E; cbn.
  - apply (f_equal (@rev nat)) in E. rewrite rev_involutive in E. now subst.
  - rewrite <- (rev_involutive s), E. reflexivity.
Qed.

Lemma bproj0_same s idx : valid s idx -> bproj0 s idx = idx.
Proof.
  intros Hv. induction Hv as [|i n idx s Hi _ IH]; cbn [bproj0]; auto. rewrite IH. f_equal.
  destruct (Nat.eqb_spec n 1); lia.
Qed.

Lemma bproj_same s idx : valid s idx -> bproj s idx = idx.
Proof.
  intros Hv. unfold bproj. rewrite (valid_length _ _ Hv), Nat.sub_diag. cbn. now apply bproj0_same.
Qed.

Lemma bproj_nil idx : bproj [] idx = [].
Proof. unfold bproj. now destruct (skipn _ idx). Qed.

Lemma bget_same a idx : valid (nshape a) idx -> bget a idx = aget a idx.
Proof. intros Hv. unfold bget. now rewrite bproj_same. Qed.

Lemma bmap2_same f a b : nshape a = nshape b ->
  bmap2 f a b = Ok (nbuild (nshape a) (fun idx => f (aget a idx) (aget b idx))).
Proof.
  intros Hs. unfold bmap2. rewrite <- Hs, bshape_same. f_equal. apply nbuild_ext.
  intros idx Hv. rewrite !bget_same; auto. now rewrite <- Hs.
Qed.

Lemma bmap2_scalar_r f a v :
  bmap2 f a (Nd [] [v]) = Ok (nbuild (nshape a) (fun idx => f (aget a idx) v)).
Proof.
  unfold bmap2. cbn [nshape]. rewrite bshape_nil_r. f_equal. apply nbuild_ext.
  intros idx Hv. rewrite (bget_same a) by auto. reflexivity.
Qed.

Lemma bmap2_scalar_l f v a :
  bmap2 f (Nd [] [v]) a = Ok (nbuild (nshape a) (fun idx => f v (aget a idx))).
Proof.
  unfold bmap2. cbn [nshape]. rewrite bshape_nil_l. f_equal. apply nbuild_ext.
  intros idx Hv. rewrite (bget_same a) by auto. reflexivity.
Qed.

Lemma bmap3_same f a b c : nshape a = nshape b -> nshape a = nshape c ->
  bmap3 f a b c = Ok (nbuild (nshape a) (fun idx => f (aget a idx) (aget b idx) (aget c idx))).
Proof.
  intros Hb Hc. unfold bmap3. rewrite <- Hb, bshape_same, <- Hc, bshape_same. f_equal.
  apply nbuild_ext. intros idx Hv. rewrite !bget_same; auto; [now rewrite <- Hc|now rewrite <- Hb].
Qed.

Lemma bmap3_scalar3 f a b v : nshape a = nshape b ->
  bmap3 f a b (Nd [] [v]) = Ok (nbuild (nshape a) (fun idx => f (aget a idx) (aget b idx) v)).
Proof.
  intros Hb. unfold bmap3. cbn [nshape]. rewrite <- Hb, bshape_same, bshape_nil_r. f_equal.
  apply nbuild_ext. intros idx Hv. rewrite (bget_same a), (bget_same b); auto. now rewrite <- Hb.
Qed.

(** Three-dimensional shapes where some axes are 1. *)
Lemma bshape3 L C D L' C' D' : (L' = L \/ L' = 1) -> (C' = C \/ C' = 1) -> (D' = D \/ D' = 1) ->
  bshape [L; C; D] [L'; C'; D'] = Some [L; C; D].
Proof.
  intros Hl Hc Hd. unfold bshape. cbn [rev app bshape_rev].
  assert (E : forall (a b : nat) (r : list nat), (b = a \/ b = 1) ->
    (if a =? b then Some (a :: r) else if a =? 1 then Some (b :: r)
     else if b =? 1 then Some (a :: r) else None) = Some (a :: r)).
  { intros a b r Hab. destruct (Nat.eqb_spec a b); auto.
    destruct (Nat.eqb_spec a 1), (Nat.eqb_spec b 1); auto; lia. }
  rewrite !E; auto.
Qed.

Lemma bproj3 L C D l c d : bproj [L; C; D] [l; c; d] =
  [if L =? 1 then 0 else l; if C =? 1 then 0 else c; if D =? 1 then 0 else d].
Proof. reflexivity. Qed.

Lemma bget3_lot (a : nd V) L l c d : nshape a = [L; 1; 1] -> l < L ->
  bget a [l; c; d] = aget a [l; 0; 0].
Proof.
  intros Hs Hl. unfold bget. rewrite Hs, bproj3. f_equal. cbn. destruct (Nat.eqb_spec L 1); auto.
  now replace l with 0 by lia.
Qed.

Lemma bget3_chp (a : nd V) L C l c d : nshape a = [L; C; 1] -> l < L -> c < C ->
  bget a [l; c; d] = aget a [l; c; 0].
Proof.
  intros Hs Hl Hc. unfold bget. rewrite Hs, bproj3. f_equal. cbn.
  destruct (Nat.eqb_spec L 1), (Nat.eqb_spec C 1); repeat f_equal; lia.
Qed.

(** Slices *)
Lemma flat_app_zero s : forall idx, length idx = length s -> flat (s ++ [1]) (idx ++ [0]) = flat s idx.
Proof.
  induction s as [|n r IH]; intros [|i j] Hl; cbn in Hl; try discriminate; auto.
  cbn [app flat]. rewrite IH by lia. f_equal. f_equal. clear.
  induction r; cbn in *; auto.
Qed.

Lemma aget_nexpand a idx : length idx = length (nshape a) -> aget (nexpand a) (idx ++ [0]) = aget a idx.
Proof. intros Hl. unfold aget, nexpand; cbn. now rewrite flat_app_zero. Qed.

Lemma awf_nexpand a : awf a -> awf (nexpand a).
Proof.
  unfold awf, nexpand; cbn. intros ->. induction (nshape a) as [|n r IH]; cbn; auto.
Qed.

Lemma nsub1_get a i b : nsub1 a i = Ok b -> awf a ->
  awf b /\ exists n r, nshape a = n :: r /\ i < n /\ nshape b = r /\
    forall idx, valid r idx -> aget b idx = aget a (i :: idx).
Proof.
  unfold nsub1. destruct (nshape a) as [|n r] eqn:Es; [discriminate|].
  destruct (Nat.ltb_spec i n); [|discriminate]. intros Hb Hw. inversion Hb; subst; clear Hb.
  unfold awf in *. rewrite Es in Hw. cbn [prod fold_right] in Hw. fold (prod r) in Hw.
  assert (Hle : i * prod r + prod r <= n * prod r) by nia.
  split.
  - cbn. rewrite firstn_length, skipn_length. fold (prod r). lia.
  - exists n, r. repeat split; auto. intros idx Hv. pose proof (flat_lt _ _ Hv) as Hf.
    unfold aget. rewrite Es. cbn [nshape ndata flat].
    rewrite <- (firstn_skipn (i * prod r) (ndata a)) at 2.
    rewrite app_nth2; rewrite firstn_length; [|lia].
    replace (i * prod r + flat r idx - Nat.min (i * prod r) (length (ndata a))) with (flat r idx) by lia.
    rewrite <- (firstn_skipn (prod r) (skipn (i * prod r) (ndata a))) at 2.
    rewrite app_nth1; auto. rewrite firstn_length, skipn_length. lia.
Qed.

Lemma nsub1_ok a n r i : nshape a = n :: r -> i < n -> exists b, nsub1 a i = Ok b.
Proof. intros Hs Hi. unfold nsub1. rewrite Hs. destruct (Nat.ltb_spec i n); [eauto|lia]. Qed.

Lemma nslice_first_get k a b : nslice_first k a = Ok b -> awf a ->
  awf b /\ exists n r, nshape a = n :: r /\ nshape b = Nat.min k n :: r /\
    forall idx, valid (nshape b) idx -> aget b idx = aget a idx.
Proof.
  unfold nslice_first. destruct (nshape a) as [|n r] eqn:Es; [discriminate|].
  intros Hb Hw. inversion Hb; subst; clear Hb. unfold awf in *. rewrite Es in Hw.
  cbn [prod fold_right] in Hw. fold (prod r) in Hw. set (m := Nat.min k n) in *.
  assert (m * prod r <= n * prod r) by (apply Nat.mul_le_mono_r; unfold m; lia).
  split.
  - cbn. rewrite firstn_length. fold (prod r). lia.
  - exists n, r. repeat split; auto. intros idx Hv. cbn [nshape] in Hv. pose proof (flat_lt _ _ Hv) as Hf.
    cbn [prod fold_right] in Hf. fold (prod r) in Hf.
    unfold aget. rewrite Es. cbn [nshape ndata].
    replace (flat (n :: r) idx) with (flat (m :: r) idx) by (destruct idx; auto).
    rewrite <- (firstn_skipn (m * prod r) (ndata a)) at 2.
    rewrite app_nth1; auto. rewrite firstn_length. lia.
Qed.

Lemma nslice_third_get k a b : nslice_third k a = Ok b ->
  awf b /\ exists x y z r, nshape a = x :: y :: z :: r /\ nshape b = x :: y :: Nat.min k z :: r /\
    forall idx, valid (nshape b) idx -> aget b idx = aget a idx.
Proof.
  unfold nslice_third. destruct (nshape a) as [|x [|y [|z r]]] eqn:Es; try discriminate.
  intros Hb. inversion Hb; subst; clear Hb. split; [apply awf_nbuild|].
  exists x, y, z, r. repeat split; auto. intros idx Hv. now apply aget_nbuild.
Qed.
End Get.

(** of_nd / to_nd *)
Section Py.
Context {V : Type} `{NumOps V}.

Lemma of_nd_arr (a : nd V) : nshape a <> [] -> of_nd a = PArr a.
Proof. unfold of_nd. destruct (nshape a); [congruence|reflexivity]. Qed.

Lemma of_nd_nbuild n s (f : list nat -> V) : of_nd (nbuild (n :: s) f) = PArr (nbuild (n :: s) f).
Proof. reflexivity. Qed.
End Py.
