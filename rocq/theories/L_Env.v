(** Lemmas about instruments, registration and generated conditions. *)
From Coq Require Import QArith Lia.
From Verif Require Import M_Base M_Num M_Nd M_RandVar M_Latent M_Time M_TestSpec M_Device M_Report M_Env
  S_Latent S_Device S_Env L_Base L_Nd L_Latent L_Device L_Device3.
Open Scope nat_scope.

(** ** Strings *)
Lemma append_inj_l (s : string) : forall a b, (a ++ s)%string = (b ++ s)%string -> a = b.
Proof.
  assert (Len : forall a, String.length (a ++ s) = String.length a + String.length s).
  { induction a; cbn; auto. }
  induction a as [|x a IH]; intros [|y b] E; cbn [append] in E; auto.
  - apply (f_equal String.length) in E. cbn [String.length] in E. rewrite Len in E. lia.
  - apply (f_equal String.length) in E. cbn [String.length] in E. rewrite Len in E. lia.
  - injection E as -> E. f_equal. auto.
Qed.

Fixpoint last_char (s : string) : option Ascii.ascii :=
  match s with
  | EmptyString => None
  | String c r => match last_char r with Some x => Some x | None => Some c end
  end.
Lemma last_char_app a b : b <> EmptyString -> last_char (a ++ b) = last_char b.
Proof.
  intros N. induction a as [|c a IH]; cbn [append last_char]; auto.
  rewrite IH. destruct b as [|c' b]; [congruence|]. cbn [last_char]. destruct (last_char b); auto.
Qed.
Lemma var_instm a b : (a ++ "_var")%string <> (b ++ "_instm")%string.
Proof.
  intros E. apply (f_equal last_char) in E. rewrite !last_char_app in E by discriminate. discriminate.
Qed.
Lemma instm_meas p : String.eqb (p ++ "_instm") "meas_instm" = String.eqb p "meas".
Proof.
  destruct (String.eqb_spec p "meas") as [->|N]; [reflexivity|].
  destruct (String.eqb_spec (p ++ "_instm") "meas_instm") as [E|]; auto.
  destruct N. now apply (append_inj_l "_instm" p "meas").
Qed.

Section Reg.
Context {V : Type} `{NumOps V} `{Rng V} `{HashOrd}.

(** ** Registration *)
Lemma set_attrs_get {O} (name_of : O -> option string) (mk : O -> attr V) suffix objs ids : forall (e e' : env V),
  set_attrs name_of mk suffix objs ids e = Ok e' ->
  (forall n, dget e' (n ++ suffix) = match last_named name_of objs ids n with Some o => Some (mk o) | None => dget e (n ++ suffix) end) /\
  (forall k, (forall n, k <> (n ++ suffix)%string) -> dget e' k = dget e k) /\
  (forall k a, In (k, a) e' -> In (k, a) e \/ exists i o, In i ids /\ nth_error objs i = Some o /\ a = mk o).
Proof.
  induction ids as [|i r IH]; intros e e' E; cbn [set_attrs last_named] in *.
  - injection E as <-. auto.
  - destruct (nth_error objs i) as [o|] eqn:Eo; [|discriminate]. destruct (name_of o) as [n0'|] eqn:En; [|discriminate].
    apply IH in E as (G & O' & I). split; [|split].
    + intros n. rewrite G. destruct (last_named name_of objs r n); auto.
      rewrite dget_dset. destruct (String.eqb_spec n0' n) as [->|N].
      * now rewrite String.eqb_refl.
      * destruct (String.eqb_spec (n0' ++ suffix) (n ++ suffix)) as [Q|]; auto. now apply append_inj_l in Q.
    + intros k Hk. rewrite O' by auto. apply dget_dset_neq. intros Q. now apply (Hk n0').
    + intros k a Hin. apply I in Hin as [Hin|(j & o' & J1 & J2 & J3)].
      * apply In_dset in Hin as [[-> ->]|Hin]; auto. right. exists i, o. repeat split; auto. now left.
      * right. exists j, o'. repeat split; auto. now right.
Qed.

(** The objects after naming. *)
Lemma fold_named {O} (setn : O -> option string -> O) (d : dict nat) : forall objs i,
  nth_error (fold_left (fun os (kv : string * nat) => upd os (snd kv) (fun o => setn o (Some (fst kv)))) d objs) i =
  match find (fun kv : string * nat => snd kv =? i) (rev d) with
  | Some kv => option_map (fun o => fold_left (fun o (kv : string * nat) => if snd kv =? i then setn o (Some (fst kv)) else o) d o) (nth_error objs i)
  | None => nth_error objs i
  end.
Proof.
  assert (F : forall i (d : dict nat) o, find (fun kv : string * nat => snd kv =? i) (rev d) = None ->
    fold_left (fun o (kv : string * nat) => if snd kv =? i then setn o (Some (fst kv)) else o) d o = o).
  { intros i d'. induction d' as [|kv r IHd]; intros o Hn; cbn [fold_left]; auto.
    cbn [rev] in Hn.
    assert (Hk : (snd kv =? i) = false /\ find (fun kv : string * nat => snd kv =? i) (rev r) = None).
    { split.
      - destruct (snd kv =? i) eqn:Ek; auto. pose proof (find_none _ _ Hn kv) as X.
        rewrite X in Ek; [discriminate|]. apply in_app_iff. right. now left.
      - apply find_none_all. intros y Hy. apply (find_none _ _ Hn). apply in_app_iff. now left. }
    destruct Hk as [-> Hr]. auto. }
  induction d as [|kv r IH]; intros objs i; cbn [fold_left rev]; auto.
  rewrite IH, upd_nth.
  destruct (find (fun kv0 : string * nat => snd kv0 =? i) (rev r)) as [kv'|] eqn:Ef.
  - assert (Fa : exists x, find (fun kv0 : string * nat => snd kv0 =? i) (rev r ++ [kv]) = Some x).
    { apply find_some in Ef as [Hin Hk]. destruct (find (fun kv0 : string * nat => snd kv0 =? i) (rev r ++ [kv])) as [x|] eqn:E'; eauto.
      rewrite (find_none _ _ E' kv') in Hk; [discriminate|]. apply in_app_iff. now left. }
    destruct Fa as [x ->]. destruct (snd kv =? i) eqn:Ek; destruct (nth_error objs i); cbn; rewrite ?Ek; auto.
  - destruct (snd kv =? i) eqn:Ek.
    + assert (Fa : find (fun kv0 : string * nat => snd kv0 =? i) (rev r ++ [kv]) = Some kv).
      { apply find_first; auto. intros y Hy. apply (find_none _ _ Ef). auto. }
      rewrite Fa. destruct (nth_error objs i); cbn; auto. rewrite ?Ek. f_equal. symmetry. now apply F.
    + rewrite find_none_all; auto. intros y Hy. apply in_app_iff in Hy as [Hy|[<-|[]]]; auto. apply (find_none _ _ Ef). auto.
Qed.

Lemma dict_named {O} (name_of : O -> option string) (setn : O -> option string -> O)
  (Hset : forall o n, name_of (setn o n) = n) (d : dict nat) objs : dwf d -> NoDup (map snd d) ->
  forall os, os = fold_left (fun os (kv : string * nat) => upd os (snd kv) (fun o => setn o (Some (fst kv)))) d objs ->
  forall n, last_named name_of os (map snd d) n =
    match dget d n with Some i => option_map (fun o => setn o (Some n)) (nth_error objs i) | None => None end.
Proof.
  intros W N os Eos n.
  assert (G : forall kv, In kv d -> nth_error os (snd kv) = option_map (fun o => setn o (Some (fst kv))) (nth_error objs (snd kv))).
  { clear W n. subst os. revert N objs. induction d as [|kv0 r IH]; intros N objs kv Hin; [destruct Hin|].
    cbn [map] in N. inversion N as [|? ? Ni N']; subst. cbn [fold_left]. destruct Hin as [<-|Hin].
    - rewrite fold_named. rewrite find_none_all.
      + rewrite upd_nth, Nat.eqb_refl. reflexivity.
      + intros y Hy. apply Nat.eqb_neq. intros Q. apply Ni. rewrite <- Q. apply in_map. now apply in_rev.
    - rewrite IH by auto. rewrite upd_nth. destruct (Nat.eqb_spec (snd kv0) (snd kv)) as [Q|]; auto.
      destruct Ni. rewrite Q. now apply in_map. }
  clear Eos. unfold dwf in W. revert W N G. induction d as [|[k i] r IH]; intros W N G; auto.
  cbn [map snd fst dkeys last_named] in *. inversion W as [|? ? Wk W']; subst. inversion N as [|? ? Ni N']; subst.
  rewrite IH; [|assumption|assumption|intros; apply G; right; assumption]. cbn [dget]. destruct (String.eqb_spec n k) as [->|Nk].
  - assert (Hn : dget r k = None) by (now apply dget_None_keys). rewrite Hn.
    pose proof (G (k, i) (or_introl eq_refl)) as Gk. cbn [fst snd] in Gk. rewrite Gk.
    destruct (nth_error objs i); cbn; auto. rewrite Hset, String.eqb_refl. reflexivity.
  - pose proof (G (k, i) (or_introl eq_refl)) as Gk. cbn [fst snd] in Gk. rewrite Gk.
    destruct (dget r n) as [j|] eqn:Ej.
    + destruct (nth_error objs j) eqn:E'; cbn [option_map]; auto.
      destruct (nth_error objs i); cbn; auto. rewrite Hset. destruct (String.eqb_spec k n); congruence.
    + destruct (nth_error objs i); cbn; auto. rewrite Hset. destruct (String.eqb_spec k n); congruence.
Qed.

(** What a registration gives: the object, named for a dictionary. *)
Definition renamed {O} (setn : O -> option string -> O) (r : reg) (n : string) (o : O) : O :=
  match r with RDict _ => setn o (Some n) | _ => o end.

Lemma reg_given {O} (name_of : O -> option string) (setn : O -> option string -> O)
  (Hset : forall o n, name_of (setn o n) = n) objs r n : reg_plain r ->
  last_named name_of (fst (reg_objs setn objs r)) (snd (reg_objs setn objs r)) n =
  option_map (renamed setn r n) (given name_of objs r n).
Proof.
  intros P. destruct r as [|d|l]; cbn [reg_objs fst snd given renamed]; auto.
  - destruct P as [W N]. rewrite (dict_named name_of setn Hset d objs W N _ eq_refl).
    destruct (dget d n); auto.
  - destruct (last_named _ _ _ _); auto.
Qed.

Lemma env_init_get eobjs vr iobjs ir (e : env V) : reg_plain vr -> reg_plain ir -> env_init eobjs vr iobjs ir = Ok e ->
  forall n,
    dget e (n ++ "_var") = option_map (fun m => AVar (renamed eset_name vr n m)) (given em_name eobjs vr n) /\
    dget e (n ++ "_instm") = option_map (fun i => AInst (renamed iset_name ir n i)) (given in_name iobjs ir n).
Proof.
  intros Pv Pi E n. unfold env_init in E.
  destruct (reg_objs eset_name eobjs vr) as [es eids] eqn:E1. destruct (reg_objs iset_name iobjs ir) as [is_ iids] eqn:E2.
  apply rbind_ok in E as (e1 & A & B). apply set_attrs_get in A as (A1 & A2 & _). apply set_attrs_get in B as (B1 & B2 & _).
  pose proof (reg_given em_name eset_name (fun o n => eq_refl) eobjs vr n Pv) as G1. rewrite E1 in G1. cbn [fst snd] in G1.
  pose proof (reg_given in_name iset_name (fun o n => eq_refl) iobjs ir n Pi) as G2. rewrite E2 in G2. cbn [fst snd] in G2.
  split.
  - rewrite B2 by (intros; apply var_instm). rewrite A1, G1. destruct (given _ _ _ _); auto.
  - rewrite B1, G2. destruct (given in_name iobjs ir n); auto. cbn [option_map]. rewrite A2; auto.
    intros k Q. symmetry in Q. now apply var_instm in Q.
Qed.

(** ** C58 *)
Lemma instm_lookup eobjs vr iobjs ir (e : env V) p : reg_plain vr -> reg_plain ir -> env_init eobjs vr iobjs ir = Ok e ->
  given in_name iobjs ir "meas" = None ->
  (p <> "meas"%string ->
     match given in_name iobjs ir p with
     | Some i => exists i', meas_instm e p = Ok (FInstm i') /\ in_prec i' = in_prec i /\ in_err i' = in_err i /\ in_range i' = in_range i
     | None => exists i', meas_instm e p = Ok (FInstm i') /\ in_prec i' = None /\ in_err i' = None /\ in_range i' = None
     end) /\
  forall vals w, measure_with e "meas" vals w = (Err AttributeError, w).
Proof.
  intros Pv Pi E M. pose proof (env_init_get _ _ _ _ _ Pv Pi E) as G.
  assert (Mm : dmem e "meas_instm" = false).
  { destruct (G "meas"%string) as [_ Gm]. cbn [append] in Gm. unfold dmem. rewrite Gm, M. reflexivity. }
  split.
  - intros Np. unfold meas_instm. rewrite Mm. destruct (G p) as [_ ->]. rewrite instm_meas.
    destruct (given in_name iobjs ir p) as [i|] eqn:Eg; cbn [option_map].
    + eexists. split; [reflexivity|]. destruct ir; cbn; auto.
    + apply String.eqb_neq in Np. rewrite Np. eexists. split; [reflexivity|]. auto.
  - intros vals w. unfold measure_with, meas_instm. rewrite Mm. destruct (G "meas"%string) as [_ Gm]. cbn [append] in *.
    rewrite Gm, M. reflexivity.
Qed.

Lemma instm_broken eobjs vr iobjs ir (e : env V) i p vals w : reg_plain vr -> reg_plain ir -> env_init eobjs vr iobjs ir = Ok e ->
  given in_name iobjs ir "meas" = Some i ->
  meas_instm e p = Err TypeError /\ measure_with e p vals w = (Err TypeError, w).
Proof.
  intros Pv Pi E M. pose proof (env_init_get _ _ _ _ _ Pv Pi E) as G. destruct (G "meas"%string) as [_ Gm]. cbn [append] in Gm.
  assert (Mm : dmem e "meas_instm" = true) by (unfold dmem; rewrite Gm, M; reflexivity).
  assert (X : meas_instm e p = Err TypeError) by (unfold meas_instm; now rewrite Mm). split; auto.
  unfold measure_with. rewrite X. reflexivity.
Qed.

(** A variation model is always found. *)
Lemma vrtn_total eobjs vr iobjs ir (e : env V) p : env_init eobjs vr iobjs ir = Ok e -> exists m, vrtn_mdl e p = Ok m.
Proof.
  intros E. unfold env_init in E.
  destruct (reg_objs eset_name eobjs vr) as [es eids] eqn:E1. destruct (reg_objs iset_name iobjs ir) as [is_ iids] eqn:E2.
  apply rbind_ok in E as (e1 & A & B). apply set_attrs_get in A as (A1 & A2 & _). apply set_attrs_get in B as (B1 & B2 & _).
  unfold vrtn_mdl. rewrite B2 by (intros; apply var_instm). rewrite A1. destruct (last_named em_name es eids p); cbn; eauto.
Qed.

(** ** C23 *)
Lemma zip_add_nth xs es k : length es = length xs ->
  nth_error (zip_add xs es) k = match nth_error xs k, nth_error es k with Some x, Some y => Some (nadd x y) | _, _ => None end.
Proof.
  revert es k. induction xs as [|x xs IH]; intros [|y es] [|k] L; cbn in *; auto; try lia.
Qed.
Lemma zip_add_length (xs es : list V) : length es = length xs -> length (zip_add xs es) = length xs.
Proof. revert es. induction xs as [|x xs IH]; intros [|y es] L; cbn in *; auto; try lia. Qed.

Lemma map_res_nth {A B} (f : A -> res B) l : forall l', map_res f l = Ok l' ->
  length l' = length l /\ forall k x, nth_error l k = Some x -> exists y, nth_error l' k = Some y /\ f x = Ok y.
Proof.
  induction l as [|x r IH]; intros l' E; cbn [map_res] in E.
  - injection E as <-. split; auto. intros [|k] x Hk; discriminate.
  - apply rbind_ok in E as (y & E1 & E). apply rbind_ok in E as (ys & E2 & E). injection E as <-.
    apply IH in E2 as [L G]. split; [cbn; auto|]. intros [|k] z Hk; cbn in *; [injection Hk as <-; eauto|auto].
Qed.

Lemma measure_ok (i : instm V) vals w ys w' : measure i vals w = (Ok ys, w') ->
  length ys = length vals /\
  exists es, (match in_err i with
              | Some r => reads r (length vals) w es w'
              | None => w' = w
              end) /\
    forall k x, nth_error vals k = Some x -> exists x' r y,
      (match in_err i with Some _ => exists ek, nth_error es k = Some ek /\ x' = nadd x ek | None => x' = x end) /\
      rounded (in_prec i) x' r /\ limited (in_range i) r y /\ nth_error ys k = Some y.
Proof.
  unfold measure. intros E. apply bind_ok in E as (v1 & w1 & E1 & E). apply bind_lift_ok in E as (v2 & E2 & E).
  apply ret_ok in E as [-> ->].
  assert (S1 : length v1 = length vals /\ exists es,
    (match in_err i with Some r => reads r (length vals) w es w1 | None => w1 = w end) /\
    forall k x, nth_error vals k = Some x -> exists x', nth_error v1 k = Some x' /\
      (match in_err i with Some _ => exists ek, nth_error es k = Some ek /\ x' = nadd x ek | None => x' = x end)).
  { destruct (in_err i) as [r|].
    - apply bind_ok in E1 as (es & w2 & E1 & E3). apply ret_ok in E3 as [-> ->]. pose proof (sample_length _ _ _ _ _ E1) as L.
      split; [now apply zip_add_length|]. exists es. split; [now apply sample_reads|]. intros k x Hk.
      rewrite zip_add_nth by auto. rewrite Hk. destruct (nth_error es k) as [y|] eqn:Ey; [eauto|].
      apply nth_error_None in Ey. assert (k < length vals) by (apply nth_error_Some; congruence). lia.
    - apply ret_ok in E1 as [-> ->]. split; auto. exists []. split; auto. intros k x Hk. eauto. }
  destruct S1 as (L1 & es & Hes & G1).
  assert (S2 : length v2 = length v1 /\ forall k x, nth_error v1 k = Some x -> exists r, nth_error v2 k = Some r /\ rounded (in_prec i) x r).
  { unfold rounded. destruct (in_prec i) as [p|].
    - destruct (Z.eqb p 0%Z) eqn:Np; [apply Z.eqb_eq in Np; subst p|apply Z.eqb_neq in Np].
      + injection E2 as <-. split; auto. intros. eauto.
      + apply map_res_nth in E2 as [L2 G2]. split; auto. intros k x Hk. destruct (G2 k x Hk) as (r & Hr & R). exists r. split; auto.
        destruct p as [|pp|pp]; [congruence| |].
        all: unfold round_sig in R; destruct (neqb x n0) eqn:Z0; cbn [orb] in R; [injection R as <-; auto|];
          destruct (nisinf x) eqn:Zi; [injection R as <-; auto|];
          destruct (nflog10 x) as [ex|]; [|discriminate]; injection R as <-; right; right; eauto.
    - injection E2 as <-. split; auto. intros. eauto. }
  destruct S2 as (L2 & G2).
  split. { destruct (in_range i) as [[l h]|]; rewrite ?map_length; congruence. }
  exists es. split; auto. intros k x Hk. destruct (G1 k x Hk) as (x' & Hx' & Hd). destruct (G2 k x' Hx') as (r & Hr & Rd).
  exists x', r. unfold limited. destruct (in_range i) as [[l h]|].
  - exists (clip l h r). repeat split; auto. now rewrite nth_error_map, Hr.
  - exists r. auto.
Qed.

Lemma measure_ideal n vals w : measure (Instm (V := V) n None None None) vals w = (Ok vals, w).
Proof. reflexivity. Qed.

(** ** C21 *)
Lemma nan_dec (x : V) : {nan x} + {~ nan x}.
Proof. unfold nan. destruct (neqb x x); [right|left]; congruence. Defined.
Lemma is_nan_false (x : V) : ~ nan x -> is_nan x = false.
Proof. unfold nan, is_nan. destruct (neqb x x); [auto|congruence]. Qed.
Lemma is_nan_true (x : V) : nan x -> is_nan x = true.
Proof. unfold nan, is_nan. now intros ->. Qed.

Lemma clip_between l h x : ordered V -> ~ nan l -> ~ nan h -> ~ nan x ->
  between l h (clip (Some l) (Some h) x) /\ (between l h x -> neqb x x = true -> clip (Some l) (Some h) x = x) /\
  ~ nan (clip (Some l) (Some h) x).
Proof.
  intros O Nl Nh Nx. unfold clip, clip_limits, drop_nan. rewrite !is_nan_false by auto. cbn [orb].
  rewrite (ord_lt O h l), (ord_lt O l h) by auto.
  pose proof (ord_total O l h Nl Nh) as T. pose proof (ord_total O l x Nl Nx) as T1. pose proof (ord_total O h x Nh Nx) as T2.
  pose proof (ord_refl O l Nl) as Rl. pose proof (ord_refl O h Nh) as Rh.
  pose proof (ord_trans O l x h Nl Nx Nh) as Q1. pose proof (ord_trans O h x l Nh Nx Nl) as Q2.
  pose proof (ord_trans O x l h Nx Nl Nh) as Q3. pose proof (ord_trans O x h l Nx Nh Nl) as Q4.
  pose proof (ord_trans O l h x Nl Nh Nx) as Q5. pose proof (ord_trans O h l x Nh Nl Nx) as Q6.
  unfold between.
  destruct (nleb l h) eqn:A, (nleb h l) eqn:B; cbn [negb];
    destruct (nleb l x) eqn:C, (nleb x l) eqn:D, (nleb h x) eqn:E, (nleb x h) eqn:F; cbn;
    rewrite ?C, ?D, ?E, ?F in *; intuition (try congruence).
Qed.
End Reg.
