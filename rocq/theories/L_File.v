(** Lemmas about saving reports. *)
From Coq Require Import List String Ascii Bool Lia.
From Verif Require Import M_Base M_Export M_Script M_File S_File.
Import ListNotations.
Open Scope list_scope.

Lemma spot_eqb_eq p q : spot_eqb p q = true <-> p = q.
Proof. unfold spot_eqb. destruct (list_eq_dec string_dec p q); split; congruence. Qed.
Lemma spot_eqb_refl p : spot_eqb p p = true.
Proof. now apply spot_eqb_eq. Qed.
Lemma spot_eqb_neq p q : p <> q -> spot_eqb p q = false.
Proof. unfold spot_eqb. destruct (list_eq_dec string_dec p q); congruence. Qed.
Lemma last_inj {A} (p q : list A) a b : p ++ [a] = q ++ [b] -> p = q /\ a = b.
Proof. apply app_inj_tail. Qed.
Lemma longer {A} (p : list A) a : p ++ [a] <> p.
Proof. intros K. apply (f_equal (@length A)) in K. rewrite app_length in K. cbn in K. lia. Qed.

(** ** Texts *)
Definition noslash (s : string) : Prop := ~ In "/"%char (list_ascii_of_string s).
Lemma noslash_cons c s : noslash (String c s) -> Ascii.eqb c slash = false /\ noslash s.
Proof.
  intros K. split; [|intros H; apply K; now right]. destruct (Ascii.eqb c slash) eqn:E; [|reflexivity].
  apply Ascii.eqb_eq in E. exfalso. apply K. left. exact E.
Qed.
Lemma pieces_noslash s : noslash s -> pieces s = [s].
Proof. induction s as [|c s IH]; intros K; [reflexivity|]. apply noslash_cons in K as [E K]. cbn [pieces]. now rewrite E, IH. Qed.
Lemma pieces_app a b : noslash a -> pieces (a ++ String slash b)%string = a :: pieces b.
Proof.
  induction a as [|c s IH]; intros K; [reflexivity|]. apply noslash_cons in K as [E K].
  cbn [String.append pieces]. rewrite E. now rewrite IH.
Qed.
Lemma rpart_noslash s : noslash s -> rpart s = None.
Proof. induction s as [|c s IH]; intros K; [reflexivity|]. apply noslash_cons in K as [E K]. cbn [rpart]. now rewrite IH, E. Qed.
Lemma rpart_app a b : noslash b -> rpart (a ++ String slash b)%string = Some (a, b).
Proof.
  intros K. induction a as [|c s IH]; cbn [String.append rpart].
  - now rewrite rpart_noslash.
  - now rewrite IH.
Qed.
Lemma concat_cons a b l : String.concat "/" (a :: b :: l) = (a ++ String slash (String.concat "/" (b :: l)))%string.
Proof. reflexivity. Qed.
Lemma concat_snoc dirs n : dirs <> [] -> String.concat "/" (dirs ++ [n]) = (String.concat "/" dirs ++ String slash n)%string.
Proof.
  induction dirs as [|d [|d' r] IH]; intros K; [contradiction|reflexivity|].
  change ((d :: d' :: r) ++ [n]) with (d :: d' :: (r ++ [n])). change ((d' :: r) ++ [n]) with (d' :: (r ++ [n])) in IH.
  rewrite !concat_cons, IH by discriminate. set (x := String.concat "/" (d' :: r)). clearbody x.
  clear. induction d as [|c d Id]; cbn [String.append]; [reflexivity|now rewrite Id].
Qed.
Lemma ordinary_noslash n : ordinary n -> noslash n.
Proof. intros (_ & _ & _ & K). exact K. Qed.
Lemma pieces_concat dirs : dirs <> [] -> Forall noslash dirs -> pieces (String.concat "/" dirs) = dirs.
Proof.
  induction dirs as [|d [|d' r] IH]; intros K F; [contradiction| |].
  - cbn [String.concat]. apply pieces_noslash. now inversion F.
  - inversion F; subst. change (String.concat "/" (d :: d' :: r)) with (d ++ String slash (String.concat "/" (d' :: r)))%string.
    rewrite pieces_app by assumption. now rewrite IH by (congruence || assumption).
Qed.
Lemma filter_id {A} (f : A -> bool) l : (forall x, In x l -> f x = true) -> filter f l = l.
Proof. induction l as [|a l IH]; intros K; [reflexivity|]. cbn. rewrite (K a (or_introl eq_refl)), IH; [reflexivity|]. intros x Hx. apply K. now right. Qed.
Lemma names_ordinary dirs : Forall ordinary dirs -> filter (fun p => negb (String.eqb p "" || String.eqb p ".")) dirs = dirs.
Proof.
  intros F. apply filter_id. intros x Hx. rewrite Forall_forall in F. destruct (F x Hx) as (A & B & _).
  apply String.eqb_neq in A, B. now rewrite A, B.
Qed.
Lemma forall_noslash dirs : Forall ordinary dirs -> Forall noslash dirs.
Proof. apply Forall_impl. exact ordinary_noslash. Qed.
Lemma concat_relative dirs : Forall ordinary dirs -> absolute (String.concat "/" dirs) = false.
Proof.
  intros F. destruct dirs as [|d r]; [reflexivity|]. inversion F as [|? ? (A & _ & _ & K) _]; subst.
  destruct d as [|c d]; [contradiction|]. apply noslash_cons in K as [E _]. destruct r; cbn; exact E.
Qed.
Definition dir_text (rooted : bool) (dirs : list string) : string :=
  match dirs with [] => ""%string | _ => ((if rooted then "/" else "") ++ String.concat "/" dirs)%string end.
Lemma path_parts rooted dirs name : Forall ordinary dirs -> ordinary name ->
  dir_part (path_text rooted dirs name) = dir_text rooted dirs /\ last_part (path_text rooted dirs name) = name /\
  absolute (path_text rooted dirs name) = rooted /\ path_text rooted dirs name <> ""%string.
Proof.
  intros F O. pose proof (ordinary_noslash _ O) as N. unfold path_text, dir_part, last_part.
  assert (Ab : absolute (String.concat "/" (dirs ++ [name])) = false) by (apply concat_relative, Forall_app; auto).
  assert (Ne : String.concat "/" (dirs ++ [name]) <> ""%string).
  { destruct dirs as [|d r]; [cbn; apply O|]. rewrite concat_snoc by discriminate. destruct (String.concat "/" (d :: r)); discriminate. }
  destruct dirs as [|d r].
  - cbn [app String.concat] in *. destruct rooted; cbn [String.append].
    + change (String "/" name) with ("" ++ String slash name)%string. rewrite rpart_app by exact N. repeat split; discriminate.
    + rewrite rpart_noslash by exact N. repeat split; auto.
  - rewrite concat_snoc in * by discriminate. set (s := String.concat "/" (d :: r)) in *. destruct rooted; cbn [String.append].
    + change (String "/" (s ++ String slash name)) with (String "/" s ++ String slash name)%string. rewrite rpart_app by exact N.
      repeat split; discriminate.
    + rewrite rpart_app by exact N. repeat split; auto.
Qed.
Lemma dir_names rooted dirs : Forall ordinary dirs -> names (dir_text rooted dirs) = dirs.
Proof.
  intros F. destruct dirs as [|d r]; [reflexivity|]. unfold names, dir_text. set (l := d :: r) in *.
  assert (P : pieces (String.concat "/" l) = l) by (apply pieces_concat; [discriminate|now apply forall_noslash]).
  destruct rooted; cbn [String.append].
  - change (pieces (String "/" (String.concat "/" l))) with (""%string :: pieces (String.concat "/" l)). rewrite P. cbn [filter String.eqb orb negb].
    now apply names_ordinary.
  - rewrite P. now apply names_ordinary.
Qed.
Lemma dir_absolute rooted dirs : Forall ordinary dirs -> dirs <> [] -> absolute (dir_text rooted dirs) = rooted.
Proof.
  intros F K. destruct dirs as [|d r]; [contradiction|]. destruct rooted; [reflexivity|]. unfold dir_text. cbn [String.append].
  now apply concat_relative.
Qed.

(** ** Walking *)
Lemma ordinary_step n (p : spot) : ordinary n -> (if String.eqb n ".." then removelast p else p ++ [n]) = p ++ [n].
Proof. intros (_ & _ & K & _). apply String.eqb_neq in K. now rewrite K. Qed.
Lemma tree_below t p q : tree_ok t -> t (p ++ q) <> None -> q <> [] -> t p = Some Dir.
Proof.
  intros [_ W]. revert p. induction q as [|c q IH]; intros p K N; [contradiction|].
  destruct q as [|c' q].
  - eapply W. exact K.
  - apply (W p c). rewrite (IH (p ++ [c])); [discriminate| |discriminate]. now rewrite <- app_assoc.
Qed.
Lemma walk_to t p l : tree_ok t -> Forall ordinary l -> (forall d x, l = d ++ [x] -> t (p ++ d) = Some Dir) -> walk t p l = inl (p ++ l).
Proof.
  intros W. revert p. induction l as [|c r IH]; intros p F K; [now rewrite app_nil_r|]. inversion F as [|? ? Oc Fr]; subst. cbn [walk].
  assert (D : t p = Some Dir).
  { destruct (exists_last (l := c :: r) ltac:(discriminate)) as (d & x & E). specialize (K d x E).
    destruct d as [|y d]; [now rewrite app_nil_r in K|]. apply (tree_below t p (y :: d) W); [congruence|discriminate]. }
  rewrite D, ordinary_step by exact Oc. rewrite IH; [now rewrite <- app_assoc|exact Fr|].
  intros d x E. rewrite <- app_assoc. apply (K (c :: d) x). cbn. now rewrite E.
Qed.
(** The errors met on the way. *)
Lemma walk_missing t p l : tree_ok t -> t p = Some Dir -> Forall ordinary l ->
  forall d x r, l = d ++ x :: r -> r <> [] -> t (p ++ d) = Some Dir -> t (p ++ d ++ [x]) = None -> walk t p l = inr NoEntry.
Proof.
  intros W. revert p. induction l as [|c l IH]; intros p D F d x r E N K1 K2; [destruct d; discriminate|].
  inversion F as [|? ? Oc Fl]; subst. cbn [walk]. rewrite D, ordinary_step by exact Oc. destruct d as [|y d].
  - cbn in E. injection E as -> ->. destruct r as [|y r]; [contradiction|]. cbn [walk]. cbn in K2. now rewrite K2.
  - cbn in E. injection E as -> ->. cbn [app] in K1, K2. apply (IH (p ++ [y])) with (d := d) (x := x) (r := r); auto.
    + destruct d as [|z d]; [exact K1|]. apply (tree_below t (p ++ [y]) (z :: d) W); [rewrite <- app_assoc; cbn [app]; congruence|discriminate].
    + now rewrite <- app_assoc.
    + now rewrite <- app_assoc.
Qed.
Lemma walk_blocked t p l : tree_ok t -> Forall ordinary l ->
  forall d r c, l = d ++ r -> r <> [] -> t (p ++ d) = Some (File c) -> walk t p l = inr NotDir.
Proof.
  intros W. revert p. induction l as [|y l IH]; intros p F d r c E N K; [destruct d, r; (discriminate || contradiction)|].
  inversion F as [|? ? Oc Fl]; subst. cbn [walk]. destruct d as [|z d].
  - rewrite app_nil_r in K. now rewrite K.
  - cbn in E. injection E as -> ->.
    rewrite (tree_below t p (z :: d) W) by (congruence || discriminate). rewrite ordinary_step by exact Oc.
    apply (IH (p ++ [z])) with (d := d) (r := r) (c := c); auto. now rewrite <- app_assoc.
Qed.

(** A place that is reached is the start or lies in a directory. *)
Lemma walk_end t l : forall p q, tree_ok t -> t p = Some Dir -> walk t p l = inl q ->
  t q <> None \/ exists d c, q = d ++ [c] /\ t d = Some Dir.
Proof.
  induction l as [|c l IH]; intros p q W D E; cbn [walk] in E; [injection E as <-; left; congruence|]. rewrite D in E.
  destruct (String.eqb c "..") eqn:Ec.
  - apply (IH _ _ W) in E; [exact E|]. destruct p as [|y p'] eqn:Ep; [exact D|]. destruct (exists_last (l := y :: p') ltac:(discriminate)) as (d & x & K). rewrite K in *.
    rewrite removelast_last. apply (proj2 W d x). congruence.
  - destruct l as [|c' l].
    + cbn [walk] in E. injection E as <-. right. exists p, c. auto.
    + destruct (t (p ++ [c])) as [[|f]|] eqn:En.
      * now apply (IH _ _ W) in E.
      * cbn [walk] in E. now rewrite En in E.
      * cbn [walk] in E. now rewrite En in E.
Qed.

(** ** Changes *)
Lemma put_at t p n : put t p n p = Some n.
Proof. unfold put. now rewrite spot_eqb_refl. Qed.
Lemma put_other t p n q : q <> p -> put t p n q = t q.
Proof. intros K. unfold put. now rewrite spot_eqb_neq. Qed.
Lemma put_ok t d c n : tree_ok t -> t d = Some Dir -> t (d ++ [c]) <> Some Dir -> tree_ok (put t (d ++ [c]) n).
Proof.
  intros [W0 W] D N. split.
  - rewrite put_other; [exact W0|]. destruct d; discriminate.
  - intros q c' K. destruct (list_eq_dec string_dec q (d ++ [c])) as [->|Nq].
    + rewrite put_other in K by apply longer. apply W in K. contradiction.
    + rewrite put_other by exact Nq. destruct (list_eq_dec string_dec (q ++ [c']) (d ++ [c])) as [E|Ne].
      * apply last_inj in E as [-> _]. exact D.
      * rewrite put_other in K by exact Ne. exact (W _ _ K).
Qed.

Section Saving.
Variable cwd : spot.

Lemma locate_in t s p : locate cwd t s = inl p -> exists d n, p = d ++ [n] /\ t d = Some Dir.
Proof.
  unfold locate. destruct (walk t _ _) as [q|]; [|discriminate]. destruct (t q) as [[|f]|] eqn:E; try discriminate.
  destruct (_ || _); [discriminate|]. intros K. injection K as <-. eauto.
Qed.

Lemma export_changes x file tu t r t' : tree_ok t -> t cwd = Some Dir -> export_file cwd x file tu t = (r, t') ->
  tree_ok t' /\ exists made wrote, changed t t' made wrote (match r with Returned j => Some j | _ => None end) /\
    (wrote <> None <-> (exists j, r = Returned j) /\ file <> None /\ file <> Some ""%string).
Proof.
  intros W Dc. unfold export_file. destruct (export_to_json x tu) as [j|e].
  2:{ intros K. injection K as <- <-. split; [exact W|]. exists None, None. split; [repeat split; discriminate|]. split; [congruence|]. intros [[j K] _]. discriminate. }
  assert (Nothing : forall f, (f = None \/ f = Some ""%string) -> file = f -> (Returned j, t) = (r, t') ->
    tree_ok t' /\ exists made wrote, changed t t' made wrote (match r with Returned j => Some j | _ => None end) /\
    (wrote <> None <-> (exists j, r = Returned j) /\ file <> None /\ file <> Some ""%string)).
  { intros f Hf Ef K. injection K as <- <-. split; [exact W|]. exists None, None. split; [repeat split; discriminate|].
    split; [congruence|]. intros (_ & A & B). destruct Hf; congruence. }
  destruct file as [[|c s]|]; [apply (Nothing (Some ""%string)); auto| |apply (Nothing None); auto]. clear Nothing. set (fl := String c s). intros E.
  unfold mkdir in E. destruct (walk t (start cwd (dir_part fl)) (names (dir_part fl))) as [p|o] eqn:Ew.
  2:{ injection E as <- <-. split; [exact W|]. exists None, None. split; [repeat split; discriminate|]. split; [congruence|]. intros [[j' K] _]. discriminate. }
  assert (Ds : t (start cwd (dir_part fl)) = Some Dir).
  { unfold start. destruct (absolute _); [apply W|exact Dc]. }
  assert (Fin : forall t1 made, tree_ok t1 -> (forall p, made = Some p -> t p = None) ->
     (forall p, t1 p = match made with Some q => if spot_eqb p q then Some Dir else t p | None => t p end) ->
     match open_write cwd t1 fl j with inr o => (RaisesOs o, t1) | inl t2 => (Returned j, t2) end = (r, t') ->
     tree_ok t' /\ exists made wrote, changed t t' made wrote (match r with Returned j => Some j | _ => None end) /\
     (wrote <> None <-> (exists j, r = Returned j) /\ Some fl <> None /\ Some fl <> Some ""%string)).
  { clear E. intros t1 made W1 M V E. unfold open_write in E. destruct (locate cwd t1 fl) as [q|o] eqn:El.
    2:{ injection E as <- <-. split; [exact W1|]. exists made, None. split; [split; [exact M|split; [discriminate|exact V]]|].
        split; [congruence|]. intros [[j' K] _]. discriminate. }
    destruct (locate_in _ _ _ El) as (d & n & -> & Dd).
    destruct (t1 (d ++ [n])) as [[|f]|] eqn:En.
    - injection E as <- <-. split; [exact W1|]. exists made, None. split; [split; [exact M|split; [discriminate|exact V]]|].
      split; [congruence|]. intros [[j' K] _]. discriminate.
    - injection E as <- <-. split; [apply put_ok; [exact W1|exact Dd|congruence]|]. exists made, (Some (d ++ [n])). split.
      + split; [exact M|]. split.
        * intros p' K. injection K as <-. rewrite V in En. destruct made as [m|]; [destruct (spot_eqb (d ++ [n]) m) eqn:Em; [discriminate|]|];
            (split; [congruence|]); (split; [|discriminate]); [|discriminate]. intros K. injection K as ->. now rewrite spot_eqb_refl in Em.
        * intros p'. unfold put. destruct (spot_eqb p' (d ++ [n])); [reflexivity|apply V].
      + split; [|discriminate]. intros _. split; [eauto|split; discriminate].
    - injection E as <- <-. split; [apply put_ok; [exact W1|exact Dd|congruence]|]. exists made, (Some (d ++ [n])). split.
      + split; [exact M|]. split.
        * intros p' K. injection K as <-. rewrite V in En. destruct made as [m|]; [destruct (spot_eqb (d ++ [n]) m) eqn:Em; [discriminate|]|];
            (split; [congruence|]); (split; [|discriminate]); [|discriminate]. intros K. injection K as ->. now rewrite spot_eqb_refl in Em.
        * intros p'. unfold put. destruct (spot_eqb p' (d ++ [n])); [reflexivity|apply V].
      + split; [|discriminate]. intros _. split; [eauto|split; discriminate]. }
  destruct (t p) as [[|f]|] eqn:Ep.
  - apply (Fin t None); auto. discriminate.
  - injection E as <- <-. split; [exact W|]. exists None, None. split; [repeat split; discriminate|]. split; [congruence|]. intros [[j' K] _]. discriminate.
  - apply (Fin (put t p Dir) (Some p)); auto.
    + destruct (walk_end _ _ _ _ W Ds Ew) as [K|(d & n & -> & Dd)]; [congruence|]. apply put_ok; [exact W|exact Dd|congruence].
    + intros q K. injection K as <-. exact Ep.
Qed.

(** ** Ordinary paths *)
Section Path.
Context (t : tree) (rooted : bool) (dirs : list string) (name : string).
Hypothesis (W : tree_ok t) (Dc : t cwd = Some Dir) (Fd : Forall ordinary dirs) (On : ordinary name).
Notation b := (base rooted cwd).
Notation file := (path_text rooted dirs name).
Notation target := (b ++ dirs ++ [name]).

Lemma base_dir : t b = Some Dir.
Proof. unfold base. destruct rooted; [apply W|exact Dc]. Qed.
Lemma mkdir_walk : dirs <> [] -> mkdir cwd t (dir_text rooted dirs) =
  match walk t b dirs with
  | inr e => inr e
  | inl p => match t p with None => inl (put t p Dir) | Some Dir => inl t | Some (File _) => inr Exists end
  end.
Proof. intros K. unfold mkdir, start. now rewrite dir_absolute, dir_names by assumption. Qed.
Definition made_dir : tree := match t (b ++ dirs) with None => put t (b ++ dirs) Dir | _ => t end.
Lemma mkdir_available : available t b dirs -> mkdir cwd t (dir_text rooted dirs) = inl made_dir.
Proof.
  intros A. unfold made_dir. destruct dirs as [|x0 r0] eqn:Ed.
  - unfold mkdir, start. cbn [dir_text absolute names pieces filter String.eqb orb negb walk]. rewrite app_nil_r, base_dir. now rewrite Dc.
  - rewrite <- Ed in *. assert (N : dirs <> []) by congruence. rewrite mkdir_walk by exact N. clear Ed.
    assert (Wk : walk t b dirs = inl (b ++ dirs)).
    { apply walk_to; [exact W|exact Fd|]. intros d x E. destruct A as [A|(d' & x' & E' & A & _)].
      - apply (tree_below t (b ++ d) [x] W); [|discriminate]. rewrite <- app_assoc, <- E. congruence.
      - rewrite E in E'. apply last_inj in E' as [-> _]. exact A. }
    rewrite Wk. destruct A as [A|(d' & x' & _ & _ & A)]; now rewrite A.
Qed.
Lemma made_ok : available t b dirs -> tree_ok made_dir /\ made_dir (b ++ dirs) = Some Dir /\ forall p, p <> b ++ dirs -> made_dir p = t p.
Proof.
  intros A. unfold made_dir. destruct A as [A|(d & x & E & A & B)].
  - rewrite A. auto.
  - rewrite B. split; [|split; [apply put_at|intros p; apply put_other]]. rewrite E, app_assoc. apply put_ok; [exact W|exact A|].
    rewrite <- app_assoc, <- E. congruence.
Qed.
Lemma locate_plain t1 : tree_ok t1 -> t1 (b ++ dirs) = Some Dir -> locate cwd t1 file = inl target.
Proof.
  intros W1 D. unfold locate. destruct (path_parts rooted dirs name Fd On) as (P1 & P2 & P3 & _). rewrite P1, P2, P3, dir_names by exact Fd.
  unfold base in *. rewrite walk_to; [|exact W1|exact Fd|].
  - rewrite D. destruct On as (N1 & N2 & N3 & _). apply String.eqb_neq in N1, N2, N3. rewrite N1, N2, N3. cbn [orb]. now rewrite <- app_assoc.
  - intros d x E. apply (tree_below t1 _ [x] W1); [|discriminate]. rewrite <- app_assoc, <- E. congruence.
Qed.
Lemma export_plain x tu j : export_to_json x tu = Ok j -> export_file cwd x (Some file) tu t =
  match mkdir cwd t (dir_text rooted dirs) with
  | inr o => (RaisesOs o, t)
  | inl t1 => match open_write cwd t1 file j with inr o => (RaisesOs o, t1) | inl t2 => (Returned j, t2) end
  end.
Proof.
  intros E. unfold export_file. rewrite E. destruct (path_parts rooted dirs name Fd On) as (P1 & _ & _ & P4).
  destruct file eqn:Ef; [contradiction|]. now rewrite P1.
Qed.
Lemma target_other : target <> b ++ dirs.
Proof. rewrite app_assoc. apply longer. Qed.

Lemma export_saved x tu j : export_to_json x tu = Ok j -> available t b dirs -> t target <> Some Dir ->
  exists t', export_file cwd x (Some file) tu t = (Returned j, t') /\ t' (b ++ dirs) = Some Dir /\ t' target = Some (File (Saved j)) /\
    (forall p, p <> b ++ dirs -> p <> target -> t' p = t p) /\ open_read cwd t' file = inl (Saved j).
Proof.
  intros E A N. destruct (made_ok A) as (W1 & D1 & O1). pose proof (locate_plain _ W1 D1) as Lc. pose proof target_other as To.
  exists (put made_dir target (File (Saved j))). split; [|split; [|split; [|split]]].
  - rewrite (export_plain x tu j E), (mkdir_available A). unfold open_write. rewrite Lc, O1 by exact To. destruct (t target) as [[|f]|]; congruence.
  - rewrite put_other; [exact D1|]. intros K. now apply To.
  - apply put_at.
  - intros p P1 P2. rewrite put_other by exact P2. now apply O1.
  - unfold open_read. rewrite locate_plain.
    + now rewrite put_at.
    + rewrite app_assoc. apply put_ok; [exact W1|exact D1|]. rewrite <- app_assoc. rewrite O1 by exact To. exact N.
    + rewrite put_other; [exact D1|]. intros K. now apply To.
Qed.
Lemma export_onto_dir x tu j : export_to_json x tu = Ok j -> t target = Some Dir -> export_file cwd x (Some file) tu t = (RaisesOs IsDir, t).
Proof.
  intros E K. assert (D : t (b ++ dirs) = Some Dir) by (apply (tree_below t (b ++ dirs) [name] W); [rewrite <- app_assoc; congruence|discriminate]).
  assert (A : available t b dirs) by (left; exact D). rewrite (export_plain x tu j E), (mkdir_available A). unfold made_dir. rewrite D.
  unfold open_write. rewrite locate_plain by assumption. now rewrite K.
Qed.
Lemma export_in_file x tu j c : export_to_json x tu = Ok j -> t (b ++ dirs) = Some (File c) -> export_file cwd x (Some file) tu t = (RaisesOs Exists, t).
Proof.
  intros E K. pose proof base_dir as B. destruct dirs as [|x0 r0] eqn:Ed; [rewrite app_nil_r in K; congruence|]. rewrite <- Ed in *.
  rewrite (export_plain x tu j E), mkdir_walk by congruence. rewrite walk_to; [|exact W|exact Fd|].
  - now rewrite K.
  - intros d y Q. apply (tree_below t (b ++ d) [y] W); [|discriminate]. rewrite <- app_assoc, <- Q. congruence.
Qed.
Lemma export_blocked x tu j d r c : export_to_json x tu = Ok j -> dirs = d ++ r -> r <> [] -> t (b ++ d) = Some (File c) ->
  export_file cwd x (Some file) tu t = (RaisesOs NotDir, t).
Proof.
  intros E Q N K. rewrite (export_plain x tu j E), mkdir_walk by (rewrite Q; destruct d; [exact N|discriminate]). now rewrite (walk_blocked t b dirs W Fd d r c Q N K).
Qed.
Lemma export_missing x tu j d y r : export_to_json x tu = Ok j -> dirs = d ++ y :: r -> r <> [] -> t (b ++ d) = Some Dir -> t (b ++ d ++ [y]) = None ->
  export_file cwd x (Some file) tu t = (RaisesOs NoEntry, t).
Proof.
  intros E Q N K1 K2. rewrite (export_plain x tu j E), mkdir_walk by (rewrite Q; destruct d; discriminate).
  now rewrite (walk_missing t b dirs W base_dir Fd d y r Q N K1 K2).
Qed.
End Path.

Lemma way t : forall dirs b, t b = Some Dir ->
  available t b dirs \/ (exists c, t (b ++ dirs) = Some (File c)) \/
  (exists d r c, dirs = d ++ r /\ r <> [] /\ t (b ++ d) = Some (File c)) \/
  (exists d y r, dirs = d ++ y :: r /\ r <> [] /\ t (b ++ d) = Some Dir /\ t (b ++ d ++ [y]) = None).
Proof.
  induction dirs as [|c r IH]; intros b D.
  - left. left. now rewrite app_nil_r.
  - assert (Ap : forall l, b ++ c :: l = (b ++ [c]) ++ l) by (intros l; now rewrite <- app_assoc).
    destruct (t (b ++ [c])) as [[|f]|] eqn:E.
    + destruct (IH _ E) as [A|[(f & A)|[(d & r' & f & A & B & K)|(d & y & r' & A & B & K1 & K2)]]].
      * left. destruct A as [A|(d & y & A1 & A2 & A3)]; [left; now rewrite (Ap r)|]. right. exists (c :: d), y. split; [cbn; now rewrite A1|].
        rewrite (Ap d), (Ap r). auto.
      * right. left. exists f. now rewrite (Ap r).
      * right. right. left. exists (c :: d), r', f. split; [cbn; now rewrite A|]. split; [exact B|]. now rewrite (Ap d).
      * right. right. right. exists (c :: d), y, r'. split; [cbn; now rewrite A|]. split; [exact B|]. cbn [app]. rewrite (Ap d), (Ap (d ++ [y])). auto.
    + destruct r as [|c' r]; [right; left; eauto|]. right. right. left. exists [c], (c' :: r), f. repeat split; [discriminate|exact E].
    + destruct r as [|c' r].
      * left. right. exists [], c. rewrite app_nil_r. auto.
      * right. right. right. exists [], c, (c' :: r). rewrite app_nil_r. repeat split; auto. discriminate.
Qed.

Lemma export_iff t rooted dirs name x tu j : tree_ok t -> t cwd = Some Dir -> Forall ordinary dirs -> ordinary name -> export_to_json x tu = Ok j ->
  (exists t', export_file cwd x (Some (path_text rooted dirs name)) tu t = (Returned j, t')) <->
  available t (base rooted cwd) dirs /\ t (base rooted cwd ++ dirs ++ [name]) <> Some Dir.
Proof.
  intros W Dc Fd On E. split.
  - intros (t' & K). pose proof (base_dir t rooted W Dc) as B. split.
    + destruct (way t dirs _ B) as [A|[(c & A)|[(d & r & c & A1 & A2 & A3)|(d & y & r & A1 & A2 & A3 & A4)]]]; [exact A| | |].
      * rewrite (export_in_file t rooted dirs name W Dc Fd On x tu j c E A) in K. discriminate.
      * rewrite (export_blocked t rooted dirs name W Fd On x tu j d r c E A1 A2 A3) in K. discriminate.
      * rewrite (export_missing t rooted dirs name W Dc Fd On x tu j d y r E A1 A2 A3 A4) in K. discriminate.
    + intros N. rewrite (export_onto_dir t rooted dirs name W Dc Fd On x tu j E N) in K. discriminate.
  - intros [A N]. destruct (export_saved t rooted dirs name W Dc Fd On x tu j E A N) as (t' & K & _). eauto.
Qed.

(** ** Several reports *)
Lemma export_each_saved rooted dirs : Forall ordinary dirs -> forall l t, tree_ok t -> t cwd = Some Dir -> available t (base rooted cwd) dirs ->
  NoDup (map fst l) -> (forall n x, In (n, x) l -> ordinary n /\ (exists j, export_to_json x (Some "hours"%string) = Ok j) /\ t (base rooted cwd ++ dirs ++ [n]) <> Some Dir) ->
  exists t', export_each cwd (map (fun nx => (path_text rooted dirs (fst nx), snd nx)) l) t = (None, t') /\ tree_ok t' /\ t' cwd = Some Dir /\
    available t' (base rooted cwd) dirs /\ (l <> [] -> t' (base rooted cwd ++ dirs) = Some Dir) /\
    (forall n x j, In (n, x) l -> export_to_json x (Some "hours"%string) = Ok j -> t' (base rooted cwd ++ dirs ++ [n]) = Some (File (Saved j))) /\
    (forall p, (l = [] \/ p <> base rooted cwd ++ dirs) -> (forall n, In n (map fst l) -> p <> base rooted cwd ++ dirs ++ [n]) -> t' p = t p).
Proof.
  intros Fd. induction l as [|[n x] l IH]; intros t W Dc A Nd K.
  - exists t. cbn. split; [reflexivity|]. repeat (split; [assumption|]). split; [congruence|]. split; [intros ? ? ? []|auto].
  - destruct (K n x (or_introl eq_refl)) as (On & (j & Ej) & Nn). cbn [map fst] in Nd. inversion Nd as [|? ? Nin Nd']; subst.
    destruct (export_saved t rooted dirs n W Dc Fd On x _ j Ej A Nn) as (t1 & E1 & D1 & F1 & O1 & _).
    destruct (export_changes _ _ _ _ _ _ W Dc E1) as [W1 _].
    assert (Dc1 : t1 cwd = Some Dir).
    { destruct (list_eq_dec string_dec cwd (base rooted cwd ++ dirs)) as [Q|Q]; [rewrite Q; exact D1|].
      rewrite O1; [exact Dc|exact Q|]. intros Q'. apply Nn. rewrite <- Q'. exact Dc. }
    destruct (IH t1 W1 Dc1 (or_introl D1) Nd') as (t' & E' & W' & Dc' & A' & D' & F' & O').
    { intros m y Hm. destruct (K m y (or_intror Hm)) as (Om & Ey & Nm). split; [exact Om|]. split; [exact Ey|].
      rewrite O1; [exact Nm| |].
      - rewrite app_assoc. apply longer.
      - intros Q. rewrite !app_assoc in Q. apply last_inj in Q as [_ Q]. apply Nin. rewrite <- Q. apply (in_map fst) in Hm. exact Hm. }
    exists t'. cbn [map fst snd export_each]. rewrite E1. split; [exact E'|]. split; [exact W'|]. split; [exact Dc'|]. split; [exact A'|].
    assert (Dd : t' (base rooted cwd ++ dirs) = Some Dir).
    { destruct l as [|nx l]; [|apply D'; discriminate]. rewrite (O' _ (or_introl eq_refl)); [exact D1|intros ? []]. }
    split; [auto|]. split.
    + intros m y j' [Q|Hm] Ej'; [|exact (F' _ _ _ Hm Ej')]. injection Q as <- <-. assert (j' = j) by congruence. subst j'.
      rewrite O'; [exact F1| |].
      * right. rewrite app_assoc. apply longer.
      * intros m Hm Q. rewrite !app_assoc in Q. apply last_inj in Q as [_ Q]. subst m. contradiction.
    + intros p [Q|Hp] Ho; [discriminate|]. rewrite O'; [apply O1; [exact Hp|apply Ho; now left]|now right|]. intros m Hm. apply Ho. now right.
Qed.
Lemma export_each_app l1 l2 : forall t t1, export_each cwd l1 t = (None, t1) -> export_each cwd (l1 ++ l2) t = export_each cwd l2 t1.
Proof.
  induction l1 as [|[s x] l1 IH]; intros t t1 E; cbn [app export_each] in *; [injection E as <-; reflexivity|].
  destruct (export_file cwd x (Some s) _ t) as [[j|e|o] t2]; [now apply IH|discriminate|discriminate].
Qed.
End Saving.

(** ** The files of the scripts *)
Lemma append_assoc_s a b c : (a ++ (b ++ c) = (a ++ b) ++ c)%string.
Proof. induction a as [|x a Ia]; [reflexivity|]. cbn. now rewrite Ia. Qed.
Lemma last_char_cons c s : s <> ""%string -> last_char (String c s) = last_char s.
Proof. destruct s as [|a s]; [congruence|]. intros _. unfold last_char. cbn [String.length Nat.sub]. rewrite Nat.sub_0_r. reflexivity. Qed.
Lemma last_char_app a b : b <> ""%string -> last_char (a ++ b)%string = last_char b.
Proof.
  intros N. induction a as [|c a IH]; [reflexivity|]. cbn [String.append]. rewrite last_char_cons; [exact IH|]. destruct a; [exact N|discriminate].
Qed.
Lemma last_char_noslash s : noslash s -> s <> ""%string -> exists c, last_char s = Some c /\ Ascii.eqb c "/" = false.
Proof.
  induction s as [|c s IH]; intros K N; [congruence|]. apply noslash_cons in K as [E K]. destruct s as [|c' s].
  - exists c. split; [reflexivity|exact E].
  - rewrite last_char_cons by discriminate. apply IH; [exact K|discriminate].
Qed.
Lemma data_path_text rooted dirs name : Forall ordinary dirs -> rooted = false \/ dirs <> [] ->
  data_path (dir_text rooted dirs) name = path_text rooted (dirs ++ ["data"%string]) (name ++ ".json").
Proof.
  intros F R. unfold data_path, path_text.
  assert (T : forall l, String.concat "/" ((l ++ ["data"%string]) ++ [(name ++ ".json")%string]) =
                        (match l with [] => "" | _ => String.concat "/" l ++ "/" end ++ ("data/" ++ name ++ ".json"))%string).
  { intros l. rewrite concat_snoc by (destruct l; discriminate). destruct l as [|d r]; [reflexivity|]. rewrite concat_snoc by discriminate.
    rewrite <- !append_assoc_s. reflexivity. }
  rewrite T. destruct dirs as [|d r].
  - destruct R as [->|R]; [reflexivity|congruence].
  - unfold join, dir_text. set (s := String.concat "/" (d :: r)).
    assert (exists c, last_char s = Some c /\ Ascii.eqb c "/" = false) as (c & Lc & Nc).
    { subst s. destruct (exists_last (l := d :: r) ltac:(discriminate)) as (q & n & E). rewrite E in *. apply Forall_app in F as [_ F].
      inversion F as [|? ? On _]; subst. destruct q as [|y q].
      - cbn [app String.concat]. apply last_char_noslash; [now apply ordinary_noslash|apply On].
      - rewrite concat_snoc by discriminate. rewrite last_char_app by discriminate. rewrite last_char_cons by apply On.
        apply last_char_noslash; [now apply ordinary_noslash|apply On]. }
    assert (Ns : s <> ""%string) by (intros K; rewrite K in Lc; discriminate).
    rewrite last_char_app by exact Ns. rewrite Lc, Nc. now rewrite <- !append_assoc_s.
Qed.
