(** Lemmas about initial states and sample counts. *)
From Coq Require Import QArith Lia.
From Verif Require Import M_Base M_Num M_Nd M_RandVar M_Latent M_Time M_TestSpec M_Device M_Report M_Env M_Sim
  S_TestSpec S_Device S_Sim L_Base L_Nd L_Latent L_Device L_Device2 L_Device3 L_Sim L_Sim2.
Open Scope nat_scope.

Section L.
Context {V : Type} `{NumOps V} `{Rng V} `{HashOrd}.
Implicit Types (e : env V) (d : device V) (st : simstate V) (rep : report V).

(** ** C40: initial states *)
Lemma gen_prm_ok C L (g : gstate V) (kv : string * prm V) w g' w' : gen_prm_state C L g kv w = (Ok g', w') ->
  exists n lats wa, dget (g_counts g) (fst kv) = Some n /\
    g_counts g' = g_counts g /\ g_lat g' = dset (g_lat g) (fst kv) lats /\
    match snd kv with
    | PDeg p => prm_latents p n C L w = (Ok lats, wa) /\ g_mech g' = dset (g_mech g) (fst kv) (prm_init_mech p n C L) /\
        exists v, gen_init_vals (dp_init p) n C L wa = (Ok v, w') /\ g_prm g' = dset (g_prm g) (fst kv) v
    | PCirc c => gen_latents c n C L w = (Ok lats, w') /\ g_mech g' = g_mech g /\ g_prm g' = g_prm g
    end.
Proof.
  unfold gen_prm_state. intros E. apply bind_lift_ok in E as (n & En & E). apply dgetE_ok in En.
  apply bind_ok in E as (lats & wa & E1 & E). apply bind_lift_ok in E as (cnt & Ec & E).
  unfold dmem in Ec. rewrite En in Ec. injection Ec as <-.
  apply bind_ok in E as (prms & wb & E2 & E). apply ret_ok in E as [-> ->].
  exists n, lats, wa. cbn [g_counts g_lat g_mech g_prm]. do 3 (split; auto). destruct (snd kv) as [p|c].
  - apply bind_lift_ok in E2 as (n' & En' & E2). unfold dgetE in En'. rewrite En in En'. injection En' as <-.
    apply bind_ok in E2 as (v & wc & E2 & E3). apply ret_ok in E3 as [-> ->]. eauto.
  - apply ret_ok in E2 as [-> ->]. auto.
Qed.

Lemma gen_fold_ok C L l : forall (g : gstate V) w g' w', NoDup (map fst l) ->
  foldM (gen_prm_state C L) l g w = (Ok g', w') ->
  g_counts g' = g_counts g /\
  (forall name q, In (name, q) l -> exists n lats wa wb,
     dget (g_counts g) name = Some n /\ dget (g_lat g') name = Some lats /\
     match q with
     | PDeg p => prm_latents p n C L wa = (Ok lats, wb) /\ dget (g_mech g') name = Some (prm_init_mech p n C L) /\
         exists v wc, gen_init_vals (dp_init p) n C L wb = (Ok v, wc) /\ dget (g_prm g') name = Some v
     | PCirc c => gen_latents c n C L wa = (Ok lats, wb) /\ dget (g_mech g') name = dget (g_mech g) name /\
         dget (g_prm g') name = dget (g_prm g) name
     end) /\
  (forall x, ~ In x (map fst l) -> dget (g_lat g') x = dget (g_lat g) x /\ dget (g_mech g') x = dget (g_mech g) x /\
     dget (g_prm g') x = dget (g_prm g) x).
Proof.
  induction l as [|[k q] l IH]; intros g w g' w' N E; cbn [foldM] in E.
  - apply ret_ok in E as [-> ->]. split; auto. split; [intros ? ? []|auto].
  - apply bind_ok in E as (g1 & w1 & E1 & E). cbn [map fst] in N. inversion N as [|? ? Nk N']; subst.
    apply IH in E as (G1 & G2 & G3); auto. apply gen_prm_ok in E1 as (n & lats & wa & A1 & A2 & A3 & A4). cbn [fst snd] in *.
    split; [congruence|]. split.
    + intros name q' [Q|Hin].
      * injection Q as <- <-. destruct (G3 k Nk) as (K1 & K2 & K3). exists n, lats, w, (match q with PDeg _ => wa | PCirc _ => w1 end).
        split; auto. split; [now rewrite K1, A3, dget_dset_eq|]. destruct q as [p|c].
        -- destruct A4 as (B1 & B2 & v & B3 & B4). split; auto. split; [now rewrite K2, B2, dget_dset_eq|].
           exists v, w1. split; auto. now rewrite K3, B4, dget_dset_eq.
        -- destruct A4 as (B1 & B2 & B3). split; auto. rewrite K2, K3, B2, B3. auto.
      * assert (Nn : k <> name). { intros ->. apply Nk. apply in_map_iff. exists (name, q'). auto. }
        destruct (G2 _ _ Hin) as (n' & lats' & wa' & wb & B1 & B2 & B3). exists n', lats', wa', wb. rewrite A2 in B1.
        split; auto. split; auto. destruct q' as [p'|c']; auto. destruct B3 as (B3 & B4 & B5). split; auto.
        rewrite B4, B5. destruct q as [p|c].
        -- destruct A4 as (_ & -> & v & _ & ->). rewrite !dget_dset_neq by auto. auto.
        -- destruct A4 as (_ & -> & ->). auto.
    + intros x Hx. cbn [map fst In] in Hx. assert (k <> x /\ ~ In x (map fst l)) as [Nx Hx'] by tauto.
      destruct (G3 x Hx') as (-> & -> & ->). rewrite A3, dget_dset_neq by auto. split; auto. destruct q as [p|c].
      * destruct A4 as (_ & -> & v & _ & ->). rewrite !dget_dset_neq by auto. auto.
      * destruct A4 as (_ & -> & ->). auto.
Qed.

Lemma dev_init_ok d counts C L w st cnt w' : dwf d -> dev_init_state d counts C L w = (Ok (st, cnt), w') ->
  cnt = counts /\ st_elapsed st = TD 0 /\ st_prm0 st = st_prm st /\ st_mech0 st = st_mech st /\
  (forall x, In x (dkeys d) -> dmem counts x = true) /\
  (forall name p, dget d name = Some (PDeg p) -> exists n lats v wa wb wc,
     dget counts name = Some n /\ dget (st_lat st) name = Some lats /\ prm_latents p n C L wa = (Ok lats, wb) /\
     dget (st_mech st) name = Some (prm_init_mech p n C L) /\
     gen_init_vals (dp_init p) n C L wb = (Ok v, wc) /\ dget (st_prm st) name = Some v) /\
  (forall name c, dget d name = Some (PCirc c) -> exists n lats wa wb,
     dget counts name = Some n /\ dget (st_lat st) name = Some lats /\ gen_latents c n C L wa = (Ok lats, wb) /\
     dget (st_prm st) name = None /\ dget (st_mech st) name = None) /\
  (forall name, dget d name = None -> dget (st_prm st) name = None /\ dget (st_mech st) name = None /\ dget (st_lat st) name = None).
Proof.
  intros W E. unfold dev_init_state in E. apply bind_ok in E as (g & w1 & E & E2). apply ret_ok in E2 as [E2 ->]. injection E2 as -> ->.
  apply gen_fold_ok in E as (G1 & G2 & G3); [|exact W]. cbn [g_counts g_lat g_mech g_prm] in *.
  cbn [st_elapsed st_prm st_prm0 st_mech st_mech0 st_lat]. do 4 (split; auto). split; [|split; [|split]].
  - intros x Hx. unfold dkeys in Hx. apply in_map_iff in Hx as ([x' q] & <- & Hin). destruct (G2 _ _ Hin) as (n & _ & _ & _ & Hn & _).
    cbn [fst]. unfold dmem. now rewrite Hn.
  - intros name p Hp. apply dget_In in Hp. destruct (G2 _ _ Hp) as (n & lats & wa & wb & B1 & B2 & B3 & B4 & v & wc & B5 & B6).
    exists n, lats, v, wa, wb, wc. auto 8.
  - intros name c Hp. apply dget_In in Hp. destruct (G2 _ _ Hp) as (n & lats & wa & wb & B1 & B2 & B3 & B4 & B5).
    exists n, lats, wa, wb. auto 8.
  - intros name Hn. apply dget_None_keys in Hn. destruct (G3 name Hn) as (X & Y & Z). auto.
Qed.

Lemma gen_fold_counts C L l : forall (g : gstate V) w g' w',
  foldM (gen_prm_state C L) l g w = (Ok g', w') -> g_counts g' = g_counts g.
Proof.
  intros g w g' w' E. revert E. apply foldM_inv with (P := fun x : gstate V => g_counts x = g_counts g); auto.
  intros g1 kv w1 g2 w2 _ Eg Es. apply gen_prm_ok in Es as (n & lats & wa & _ & -> & _). auto.
Qed.

Lemma dev_init_missing d1 x q d2 counts C L w : dget counts x = None ->
  dev_init_state (d1 ++ (x, q) :: d2) counts C L w =
  match foldM (gen_prm_state C L) d1 (GState (V := V) counts [] [] []) w with
  | (Ok _, w1) => (Err KeyError, w1)
  | (Err ex, w1) => (Err ex, w1)
  end.
Proof.
  intros Hx. unfold dev_init_state, bind at 1. rewrite foldM_app. unfold bind at 1.
  destruct (foldM (gen_prm_state C L) d1 (GState (V := V) counts [] [] []) w) as [[g|ex] w1] eqn:E; auto.
  apply gen_fold_counts in E. cbn [g_counts] in E. cbn [foldM]. unfold bind at 1. unfold gen_prm_state, bind at 1, lift.
  cbn [fst]. unfold dgetE. now rewrite E, Hx.
Qed.

Lemma dev_init_matches d counts C L w st cnt w' : device_wf d -> dev_init_state d counts C L w = (Ok (st, cnt), w') -> matches d st.
Proof.
  intros [W W'] E. apply dev_init_ok in E as (_ & _ & _ & _ & _ & K & _); auto. intros name p Hp.
  destruct (K _ _ Hp) as (n & lats & v & wa & wb & wc & _ & _ & _ & Km & _ & Kp).
  split; [unfold dmem; now rewrite Kp|]. eexists. split; [exact Km|].
  unfold prm_init_mech. specialize (W' _ _ Hp). unfold dwf in W'.
  assert (G : forall l (acc : dict (pyval V)), NoDup (dkeys l) -> (forall k, In k (dkeys l) -> ~ In k (dkeys acc)) ->
    dkeys (fold_left (fun acc (nm : string * mech V) => dset acc (fst nm) (mech_init_vals (snd nm) n C L)) l acc) = dkeys acc ++ dkeys l).
  { induction l as [|[k m] l IH]; intros acc N D; cbn [fold_left fst snd]; [now rewrite app_nil_r|].
    change (dkeys ((k, m) :: l)) with (k :: dkeys l) in *. inversion N as [|? ? Nk N']; subst. rewrite IH; auto.
    - rewrite dkeys_dset. assert (M : dmem acc k = false) by (apply dmem_keys_false; apply D; now left). rewrite M, <- app_assoc. reflexivity.
    - intros k' Hk' Hin. rewrite dkeys_dset in Hin. destruct (dmem acc k).
      + eapply D; eauto. now right.
      + apply in_app_iff in Hin as [Hin|[<-|[]]]; [eapply D; eauto; now right|]. now apply Nk. }
  rewrite G; auto.
Qed.

(** ** C39: sample counts *)
Definition merge (o : option nat) (n : nat) : option nat := Some (match o with Some m => Nat.max m n | None => n end).

Lemma raise_get (c : lmdl V) names prm : forall acc n q, dget (fst acc) prm = Some n ->
  ~ In prm (required_prms c names) ->
  dget (fst (raise_counts c names prm acc)) q =
  if smem q (required_prms c names) then merge (dget (fst acc) q) n else dget (fst acc) q.
Proof.
  unfold raise_counts. generalize (required_prms c names) as l. induction l as [|x l IH]; intros [a r] n q Hn N; cbn [fold_left fst snd]; auto.
  cbn [In] in N. assert (x <> prm /\ ~ In prm l) as [Nx Nl] by tauto. cbn [fst] in Hn. rewrite Hn.
  set (small := match dget a x with None => true | Some m => m <? n end).
  assert (G : forall q', dget (if small then dset a x n else a) q' = if String.eqb q' x then merge (dget a x) n else dget a q').
  { intros q'. unfold small, merge. destruct (dget a x) as [m|] eqn:Em.
    - destruct (Nat.ltb_spec m n).
      + rewrite dget_dset. rewrite (String.eqb_sym x q'). destruct (String.eqb q' x); auto. f_equal. lia.
      + destruct (String.eqb_spec q' x) as [->|]; auto. rewrite Em. f_equal. lia.
    - rewrite dget_dset. rewrite (String.eqb_sym x q'). now destruct (String.eqb q' x). }
  assert (E : fst (if small then (dset a x n, option_map (fun r0 => dset r0 x n) r) else (a, r)) = if small then dset a x n else a) by now destruct small.
  erewrite IH; [|rewrite E, G; apply not_eq_sym, String.eqb_neq in Nx; rewrite Nx; exact Hn|auto].
  rewrite E, G. cbn [smem existsb]. fold (smem q l). destruct (String.eqb_spec q x) as [->|Nq]; cbn [orb]; auto.
  destruct (smem x l); auto. unfold merge. f_equal. destruct (dget a x); lia.
Qed.

Lemma augment_get d counts : circuits_plain d -> forall l acc q n,
  (forall p, In p l -> dmem (fst acc) p = true) ->
  (forall p c, dget d p = Some (PCirc c) -> dget (fst acc) p = dget counts p) ->
  dget (fst (augment d acc l)) q = Some n <->
  greatest (fun n => dget (fst acc) q = Some n \/
     exists p c, In p l /\ dget counts p = Some n /\ dget d p = Some (PCirc c) /\ In q (dkeys d) /\ In q (compute_args (lm_eqn c))) n.
Proof.
  intros Pl. unfold augment. induction l as [|p l IH]; intros acc q n Hl Hc; cbn [fold_left].
  - unfold greatest. split.
    + intros E. split; auto. intros m [X|(p & c & [] & _)]. rewrite E in X. injection X as <-. lia.
    + intros [[E|(p & c & [] & _)] _]. exact E.
  - destruct (dget d p) as [[x|c]|] eqn:Ed.
    2:{ assert (Hp : exists m, dget (fst acc) p = Some m).
        { specialize (Hl p (or_introl eq_refl)). unfold dmem in Hl. destruct (dget (fst acc) p); [eauto|discriminate]. }
        destruct Hp as [m Hm].
        assert (Nr : ~ In p (required_prms c (dkeys d))).
        { intros Hin. unfold required_prms in Hin. apply filter_In in Hin as [I1 I2]. apply smem_In in I2.
          destruct (Pl _ _ _ Ed I1 I2) as [x Hx]. congruence. }
        assert (R : forall q', dget (fst (raise_counts c (dkeys d) p acc)) q' =
          if smem q' (required_prms c (dkeys d)) then merge (dget (fst acc) q') m else dget (fst acc) q').
        { intros q'. now apply raise_get. }
        rewrite IH.
        - clear IH. unfold greatest. rewrite (R q).
          assert (Hm' : dget counts p = Some m) by (now rewrite <- (Hc _ _ Ed)).
          destruct (smem q (required_prms c (dkeys d))) eqn:Es.
          + apply smem_In in Es. unfold required_prms in Es. apply filter_In in Es as [I1 I2]. apply smem_In in I2. unfold merge.
            split.
            * intros [[X|(p' & c' & X)] G].
              -- injection X as <-. split.
                 ++ destruct (dget (fst acc) q) as [k|] eqn:Ek.
                    ** destruct (Nat.max_spec k m) as [[_ ->]|[_ ->]]; [right|left; auto]. exists p, c. cbn [In]. auto 8.
                    ** right. exists p, c. cbn [In]. auto 8.
                 ++ intros k [X|(p' & c' & X1 & X2 & X3 & X4)].
                    ** rewrite X. lia.
                    ** destruct X1 as [<-|X1]; [rewrite Hm' in X2; injection X2 as <-; destruct (dget (fst acc) q); lia|].
                       apply G. right. exists p', c'. auto.
              -- split; [right; exists p', c'; cbn [In]; tauto|]. intros k [Y|(p2 & c2 & [<-|Y1] & Y2 & Y3)].
                 ++ rewrite Y in G. specialize (G (Nat.max k m) (or_introl eq_refl)). lia.
                 ++ rewrite Hm' in Y2. injection Y2 as <-. specialize (G _ (or_introl eq_refl)). destruct (dget (fst acc) q); lia.
                 ++ apply G. right. exists p2, c2. auto.
            * intros [X G]. split.
              -- destruct X as [X|(p' & c' & [<-|X1] & X2 & X3)].
                 ++ left. rewrite X. f_equal. specialize (G m). assert (m <= n); [|lia]. apply G. right. exists p, c. cbn [In]. auto 8.
                 ++ left. rewrite Hm' in X2. injection X2 as <-. destruct (dget (fst acc) q) as [k|] eqn:Ek; auto. f_equal.
                    specialize (G k (or_introl eq_refl)). lia.
                 ++ right. exists p', c'. auto.
              -- intros k [Y|(p2 & c2 & Y1 & Y2)].
                 ++ injection Y as <-. destruct (dget (fst acc) q) as [k|] eqn:Ek.
                    ** pose proof (G k (or_introl eq_refl)). assert (m <= n) by (apply G; right; exists p, c; cbn [In]; auto 8). lia.
                    ** apply G. right. exists p, c. cbn [In]. auto 8.
                 ++ apply G. right. exists p2, c2. cbn [In]. tauto.
          + assert (Nq : ~ (In q (dkeys d) /\ In q (compute_args (lm_eqn c)))).
            { intros [I1 I2]. assert (smem q (required_prms c (dkeys d)) = true); [|congruence].
              apply smem_In. unfold required_prms. apply filter_In. split; auto. now apply smem_In. }
            split; intros [X G]; split.
            * destruct X as [X|(p' & c' & X)]; auto. right. exists p', c'. cbn [In]. tauto.
            * intros k [Y|(p2 & c2 & [<-|Y1] & Y2 & Y3 & Y4)]; [auto| |].
              -- rewrite Ed in Y3. injection Y3 as <-. tauto.
              -- apply G. right. exists p2, c2. auto.
            * destruct X as [X|(p' & c' & [<-|X1] & X2 & X3 & X4)]; auto.
              -- rewrite Ed in X3. injection X3 as <-. tauto.
              -- right. exists p', c'. auto.
            * intros k [Y|(p2 & c2 & Y)]; auto. apply G. right. exists p2, c2. cbn [In]. tauto.
        - intros p' Hp'. unfold dmem. rewrite R. specialize (Hl p' (or_intror Hp')). unfold dmem in Hl.
          destruct (smem p' _); [reflexivity|exact Hl].
        - intros p' c' Hp'. rewrite R. destruct (smem p' (required_prms c (dkeys d))) eqn:Es; [|eauto].
          apply smem_In in Es. unfold required_prms in Es. apply filter_In in Es as [I1 I2]. apply smem_In in I2.
          destruct (Pl _ _ _ Ed I1 I2) as [x Hx]. congruence. }
    all: rewrite IH; [|intros; apply Hl; now right|auto]; unfold greatest; split; intros [X G]; split;
      [destruct X as [X|(p' & c' & X)]; auto; right; exists p', c'; cbn [In]; tauto
      |intros k [Y|(p2 & c2 & [<-|Y1] & Y2 & Y3 & Y4)]; [auto|congruence|apply G; right; exists p2, c2; auto]
      |destruct X as [X|(p' & c' & [<-|X1] & X2 & X3 & X4)]; [auto|congruence|right; exists p', c'; auto]
      |intros k [Y|(p2 & c2 & Y)]; [auto|apply G; right; exists p2, c2; cbn [In]; tauto]].
Qed.

Lemma augment_needed d counts rc q n : circuits_plain d ->
  dget (fst (augment d (counts, rc) (dkeys counts))) q = Some n <-> greatest (needed d counts q) n.
Proof.
  intros Pl. rewrite (augment_get d counts Pl).
  - cbn [fst]. unfold greatest, needed. split; intros [X G]; split.
    + destruct X as [X|(p & c & _ & X)]; eauto 8.
    + intros m [Y|(p & c & Y1 & Y2)]; apply G; auto. right. exists p, c. split; auto.
      apply dmem_keys. unfold dmem. now rewrite Y1.
    + destruct X as [X|(p & c & Y1 & Y2)]; auto. right. exists p, c. split; auto. apply dmem_keys. unfold dmem. now rewrite Y1.
    + intros m [Y|(p & c & _ & Y)]; apply G; eauto 8.
  - intros p Hp. cbn [fst]. now apply dmem_keys.
  - auto.
Qed.

Lemma gen_init_counts d counts C L info el w r w' : circuits_plain d -> dwf d ->
  gen_init_state d counts C L info el w = (Ok r, w') ->
  exists asked, (match counts with Some (_ :: _) => Some asked = counts | _ => exists rep, info = Some rep /\ asked = rp_counts rep end) /\
  (forall q n, dget (ir_counts r) q = Some n <-> greatest (needed d asked q) n) /\
  (forall q, In q (dkeys d) -> dmem (ir_counts r) q = true).
Proof.
  intros Pl W E. unfold gen_init_state in E. destruct counts as [[|kv devs]|].
  - destruct info as [rep|]; [|discriminate E]. apply bind_ok in E as ([st cnt] & w1 & E1 & E2). apply ret_ok in E2 as [-> ->].
    apply dev_init_ok in E1 as (-> & _ & _ & _ & K & _); auto.
    exists (rp_counts rep). split; eauto. cbn [ir_counts snd fst] in *. split; auto. intros. now apply augment_needed.
  - match type of E with context [augment ?a ?b ?c] => destruct (augment a b c) as [devs1 rc] eqn:Ea end.
    apply bind_ok in E as ([st cnt] & w1 & E1 & E2). apply ret_ok in E2 as [-> ->].
    apply dev_init_ok in E1 as (-> & _ & _ & _ & K & _); auto.
    exists (kv :: devs). split; auto. cbn [ir_counts snd fst] in *. split; auto. intros.
    pose proof (augment_needed d (kv :: devs) (option_map rp_counts info) q n Pl) as A. unfold dict in *. rewrite Ea in A. exact A.
  - destruct info as [rep|]; [|discriminate E]. apply bind_ok in E as ([st cnt] & w1 & E1 & E2). apply ret_ok in E2 as [-> ->].
    apply dev_init_ok in E1 as (-> & _ & _ & _ & K & _); auto.
    exists (rp_counts rep). split; eauto. cbn [ir_counts snd fst] in *. split; auto. intros. now apply augment_needed.
Qed.

Lemma raise_mem (c : lmdl V) names prm acc q : dmem (fst acc) q = true -> dmem (fst (raise_counts c names prm acc)) q = true.
Proof.
  unfold raise_counts. revert acc. induction (required_prms c names) as [|x l IH]; intros acc Hq; cbn [fold_left]; auto.
  apply IH. destruct (dget (fst acc) prm) as [n|]; auto. destruct (match dget (fst acc) x with Some m => m <? n | None => true end); auto.
  cbn [fst]. now rewrite dmem_dset, Hq, orb_true_r.
Qed.
Lemma raise_mem_req (c : lmdl V) names prm q : forall acc, dmem (fst acc) prm = true -> In q (required_prms c names) ->
  dmem (fst (raise_counts c names prm acc)) q = true.
Proof.
  unfold raise_counts. induction (required_prms c names) as [|x l IH]; intros acc Hp Hq; [destruct Hq|].
  cbn [fold_left]. set (acc' := match dget (fst acc) prm with Some n => _ | None => _ end).
  assert (M : forall k, dmem (fst acc) k = true -> dmem (fst acc') k = true).
  { intros k Hk. unfold acc'. destruct (dget (fst acc) prm) as [n|]; auto.
    destruct (match dget (fst acc) x with Some m => m <? n | None => true end); auto. cbn [fst]. now rewrite dmem_dset, Hk, orb_true_r. }
  destruct Hq as [->|Hq]; [|apply IH; auto].
  assert (X : dmem (fst acc') q = true).
  { unfold acc'. unfold dmem in Hp. destruct (dget (fst acc) prm) as [n|]; [|discriminate].
    destruct (dget (fst acc) q) as [m|] eqn:Em.
    - destruct (m <? n); cbn [fst]; [now rewrite dmem_dset, String.eqb_refl|unfold dmem; now rewrite Em].
    - cbn [fst]. now rewrite dmem_dset, String.eqb_refl. }
  clearbody acc'. clear IH Hp M. revert acc' X. induction l as [|y l IHl]; intros a Ha; cbn [fold_left]; auto. apply IHl.
  destruct (dget (fst a) prm) as [n|]; auto. destruct (match dget (fst a) y with Some m => m <? n | None => true end); auto.
  cbn [fst]. now rewrite dmem_dset, Ha, orb_true_r.
Qed.
Lemma augment_mem d l : forall acc q, dmem (fst acc) q = true -> dmem (fst (augment d acc l)) q = true.
Proof.
  unfold augment. induction l as [|p l IH]; intros acc q Hq; cbn [fold_left]; auto. apply IH.
  destruct (dget d p) as [[x|c]|]; auto. now apply raise_mem.
Qed.
Lemma augment_mem_req d l : forall acc p c q, In p l -> dmem (fst acc) p = true -> dget d p = Some (PCirc c) ->
  In q (dkeys d) -> In q (compute_args (lm_eqn c)) -> dmem (fst (augment d acc l)) q = true.
Proof.
  induction l as [|x l IH]; intros acc p c q Hin Hm Hp I1 I2; [destruct Hin|]. destruct Hin as [->|Hin].
  - unfold augment. cbn [fold_left]. rewrite Hp. apply (augment_mem d l). apply raise_mem_req; auto.
    unfold required_prms. apply filter_In. split; auto. now apply smem_In.
  - unfold augment. cbn [fold_left]. eapply IH; eauto. destruct (dget d x) as [[y|c']|]; auto. now apply raise_mem.
Qed.
Lemma needed_some d counts rc q n : needed d counts q n -> exists m, dget (fst (augment d (counts, rc) (dkeys counts))) q = Some m.
Proof.
  intros N. assert (M : dmem (fst (augment d (counts, rc) (dkeys counts))) q = true).
  { destruct N as [N|(p & c & N1 & N2 & N3 & N4)].
    - apply augment_mem. cbn [fst]. unfold dmem. now rewrite N.
    - assert (dmem counts p = true) by (unfold dmem; now rewrite N1). eapply augment_mem_req; eauto. now apply dmem_keys. }
  unfold dmem in M. destruct (dget _ q); [eauto|discriminate].
Qed.
Lemma gen_init_enough d counts C L info el w r w' q n : circuits_plain d -> dwf d -> counts <> [] ->
  gen_init_state d (Some counts) C L info el w = (Ok r, w') -> needed d counts q n ->
  exists m, dget (ir_counts r) q = Some m /\ n <= m.
Proof.
  intros Pl W N E Hn. destruct counts as [|kv cs]; [congruence|]. cbn [gen_init_state] in E.
  match type of E with context [augment ?a ?b ?c] => destruct (augment a b c) as [devs1 rc] eqn:Ea end.
  apply bind_ok in E as ([st cnt] & w1 & E1 & E2). apply ret_ok in E2 as [-> ->].
  apply dev_init_ok in E1 as (-> & _); auto. cbn [ir_counts snd fst] in *.
  pose proof (needed_some d (kv :: cs) (option_map rp_counts info) q n Hn) as [m Hm].
  pose proof (proj1 (augment_needed d (kv :: cs) (option_map rp_counts info) q m Pl) Hm) as [_ G].
  unfold dict in *. rewrite Ea in Hm. exists m. split; auto.
Qed.

(** ** simulate *)
Lemma simulate_run e d steps C L init w st' rep' w' : device_wf d ->
  simulate e d steps C L init w = (Ok (st', rep'), w') ->
  exists st0 rep0 w0, run_steps e d 0 steps st0 rep0 w0 = (Ok (st', rep'), w') /\
    rp_meas rep0 = [] /\ rp_sum rep0 = [] /\ rp_chps rep0 = C /\ rp_lots rep0 = L /\
    match init with
    | Some s => st0 = s /\ rep0 = report_init steps C L /\ w0 = w
    | None => st_elapsed st0 = TD 0 /\ matches d st0 /\ st_prm st0 = st_prm0 st0 /\ st_mech st0 = st_mech0 st0 /\
        exists st1, dev_init_state d (rp_counts rep0) C L w = (Ok (st1, rp_counts rep0), w0) /\ st0 = set_elapsed st1 (TD 0) /\
        rp_counts rep0 = fst (augment d (calc_samples_needed steps, None) (dkeys (calc_samples_needed steps)))
    end.
Proof.
  intros W E. unfold simulate in E. destruct init as [s|].
  - exists s, (report_init steps C L), w. repeat split; auto.
  - apply bind_ok in E as (r & w1 & E1 & E2). unfold gen_init_state in E1. cbn [report_init rp_counts rp_chps rp_lots] in E1.
    apply bind_ok in E1 as ([st cnt] & w2 & E1 & E3). apply ret_ok in E3 as [-> ->]. cbn [ir_report ir_state fst snd override_elapsed] in E2.
    pose proof (dev_init_matches _ _ _ _ _ _ _ _ W E1) as M. pose proof E1 as E1'.
    apply dev_init_ok in E1 as (-> & K1 & K2 & K3 & _); [|apply W].
    do 3 eexists. split; [exact E2|]. cbn [set_counts report_init rp_meas rp_sum rp_chps rp_lots rp_counts set_elapsed st_elapsed st_prm st_prm0 st_mech st_mech0].
    do 4 (split; [reflexivity|]). split; auto. split; [exact M|]. split; auto. split; auto.
    exists st. auto.
Qed.
End L.
