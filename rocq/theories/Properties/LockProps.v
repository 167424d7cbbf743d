(** * C71, C72, C75: several threads on the same files *)
From Verif Require Import Model.Base Model.State Model.Value Model.Encoder Model.Hdf5 Model.Locks Spec.LockSpec Proofs.BaseFacts Proofs.DiskFacts Proofs.LockFacts.
From Coq Require Import Lia.

(** ** C71: under any schedule of any number of threads *)
(** at most one thread is between acquiring and releasing the lock of a file *)
Theorem C71_exclusive d0 ps s n m t u fn : steps (start d0 ps) s -> nth_error (sh_threads s) n = Some t -> nth_error (sh_threads s) m = Some u -> holds t fn -> holds u fn -> n = m.
Proof.
  intros H Hn Hm A B. apply inv_reach in H.
  assert (C : forall t, holds t fn -> exists o, crit (th_pc t) = Some o /\ op_file o = fn) by (clear; intros t; unfold holds; destruct (th_pc t); cbn; intros E; try destruct E; eauto).
  destruct (C t A) as (o & Co & Eo), (C u B) as (o' & Co' & Eo'). apply (crit_unique _ _ _ _ _ _ _ _ H Hn Hm Co Co'). congruence.
Qed.
(** whenever nobody has the lock of a file, its content is that of the operations one after another in the order of the lock, starting with the initial content *)
Theorem C71_serial d0 ps s fn : steps (start d0 ps) s -> holder fn s = None -> dget fn (sh_disk s) = dget fn (serial (sh_log s) d0).
Proof. intros H F. rewrite serial_fser. apply (inv_free _ _ (inv_reach _ _ _ H) fn F). Qed.
(** every operation that could open the file answered as it does alone at its place in that order *)
Theorem C71_answers d0 ps s l1 n o a l2 : steps (start d0 ps) s -> sh_log s = l1 ++ (n, o, Some a) :: l2 -> a <> Err EOS -> fst (alone o (serial l1 d0)) = a.
Proof.
  intros H E Na. apply inv_reach in H. pose proof (inv_answers _ _ H _ _ _ _ _ E Na) as A.
  assert (W : writes o = true \/ writes o = false) by (destruct (writes o); auto). destruct W as [W|W].
  - rewrite (proj1 (alone_own o _ W)), serial_fser. exact A.
  - destruct o; try discriminate W. cbn [alone]. unfold ret. cbn [fst]. unfold fapply in A. cbn [op_file] in A. destruct (name_ok fn); cbn [negb fst] in A; [exact A|]. congruence.
Qed.
(** each thread does its operations in its order, and is told of exactly the effects in the order of the lock *)
Theorem C71_told d0 ps s n p : steps (start d0 ps) s -> nth_error ps n = Some p ->
  exists t, nth_error (sh_threads s) n = Some t /\ p = map fst (rev (th_done t)) ++ match running (th_pc t) with Some o => [o] | None => [] end ++ th_todo t /\ told t = logged n (sh_log s).
Proof.
  intros H Hp. destruct (inv2_reach _ _ _ H) as [HL I2]. destruct (nth_error (sh_threads s) n) as [t|] eqn:Hn.
  - destruct (I2 n t p Hn Hp) as (E & fin & E1 & E2 & E3). exists t. split; [reflexivity|]. split; [exact E|]. rewrite <- E3, (logged_mine n (sh_log s)), E1, logged_app.
    assert (P : logged n (pend n (th_pc t)) = []) by (unfold pend; destruct (crit (th_pc t)); reflexivity). rewrite P, app_nil_r. reflexivity.
  - exfalso. apply nth_error_None in Hn. assert (X : nth_error ps n <> None) by congruence. apply nth_error_Some in X. lia.
Qed.
(** a key has the value of the last operation on it in the order of the lock, or its initial one *)
Lemma alone_value o d fn g : g <> [] -> name_ok fn = true -> writes o = true -> get_value (snd (alone o d)) fn g = 
  if (str_eqb (op_file o) fn && negb (str_eqb (op_group o) []) && gpath_eqb (norm (op_group o)) (norm g))%bool then Ok (value_left o) else get_value d fn g.
Proof.
  intros Hg K W. unfold get_value. rewrite !get_attr_dattrs by (reflexivity || assumption). unfold dattrs. cbn [fst snd]. unfold open_r. rewrite K.
  rewrite alone_dget. destruct (str_eqb_spec (op_file o) fn) as [E|N]; cbn [andb]; [|reflexivity].
  unfold fapply. rewrite E, K. cbn [negb]. cbv zeta. set (f := match dget fn d with Some f => f | None => new_file end).
  assert (F : forall q, attrs_at f q = match dget fn d with Some f => attrs_at f q | None => no_attrs end).
  { intros q. subst f. destruct (dget fn d); [reflexivity|]. unfold attrs_at. cbn [fget new_file]. destruct (gpath_eqb q []); reflexivity. }
  destruct o as [fn' g' v b|fn' g'|fn' g']; [| |discriminate W]; cbn [op_group value_left].
  - destruct (str_eqb_spec g' []) as [->|Ng]; cbn [negb andb snd]; [rewrite F; reflexivity|]. rewrite attrs_at_write_block, !attrs_at_write_value, gpath_eqb_refl.
    destruct (gpath_eqb_spec (norm g') (norm g)) as [X|X]; [rewrite X, gpath_eqb_refl; reflexivity|]. destruct (gpath_eqb_spec (norm g) (norm g')); [congruence|rewrite F; reflexivity].
  - destruct (str_eqb_spec g' []) as [->|Ng]; cbn [negb andb snd]; [rewrite F; reflexivity|].
    destruct (fget (norm g') f) as [[[x|] y]|] eqn:G; cbn [snd]; rewrite ?attrs_at_fset, ?F.
    + destruct (gpath_eqb_spec (norm g') (norm g)) as [X|X]; [rewrite X, gpath_eqb_refl; reflexivity|]. destruct (gpath_eqb_spec (norm g) (norm g')); [congruence|reflexivity].
    + destruct (gpath_eqb_spec (norm g') (norm g)) as [X|X]; [|reflexivity]. rewrite <- F, <- X. unfold attrs_at. rewrite G. reflexivity.
    + destruct (gpath_eqb_spec (norm g') (norm g)) as [X|X]; [|reflexivity]. rewrite <- F, <- X. unfold attrs_at. rewrite G. reflexivity.
Qed.
Definition wrote (e : nat * op * option (result unit)) (fn g : pystr) : Prop := same_key (snd (fst e)) fn g /\ snd e = Some (Ok tt).
Lemma serial_app l1 l2 d : serial (l1 ++ l2) d = serial l2 (serial l1 d).
Proof. revert d. induction l1 as [|[[n o] a] l1 IH]; intros d; cbn [serial app]; auto. Qed.
Lemma answer_group d0 ps s l1 n o a l2 : steps (start d0 ps) s -> sh_log s = l1 ++ (n, o, Some a) :: l2 -> took_effect (Some a) = true -> writes o = true ->
  (op_group o = [] /\ a <> Ok tt) \/ (op_group o <> [] /\ a = Ok tt) \/ name_ok (op_file o) = false.
Proof.
  intros H E T W. assert (Na : a <> Err EOS) by (intros ->; discriminate T). pose proof (C71_answers _ _ _ _ _ _ _ _ H E Na) as A.
  rewrite (proj1 (alone_own o _ W)) in A. unfold fapply in A. destruct (name_ok (op_file o)); [|right; right; reflexivity]. cbn [negb] in A. cbv zeta in A.
  destruct o as [fn g v b|fn g|fn g]; [| |discriminate W]; cbn [op_group]; (destruct (str_eqb_spec g []) as [->|N]; cbn [fst] in A;
    [left; split; [reflexivity|rewrite <- A; discriminate]|right; left; split; [exact N|]]); [congruence|].
  destruct (fget (norm g) _) as [[[x|] y]|] in A; cbn [fst] in A; congruence.
Qed.
Lemma serial_value d0 ps s l1 l2 fn g : steps (start d0 ps) s -> sh_log s = l1 ++ l2 -> g <> [] -> name_ok fn = true -> (forall e, In e l2 -> ~ wrote e fn g) ->
  get_value (serial l2 (serial l1 d0)) fn g = get_value (serial l1 d0) fn g.
Proof.
  intros H E Hg K N. revert l1 E. induction l2 as [|[[n o] a] l2 IH]; intros l1 E; [reflexivity|].
  assert (E' : sh_log s = (l1 ++ [(n, o, a)]) ++ l2) by (rewrite <- app_assoc; exact E).
  assert (IH' := IH (fun e He => N e (or_intror He)) (l1 ++ [(n, o, a)]) E'). rewrite serial_app in IH'. cbn [serial] in *. rewrite IH'.
  destruct (took_effect a) eqn:T; [|reflexivity]. destruct (writes o) eqn:W; [|destruct o; try discriminate W; reflexivity].
  rewrite alone_value by assumption. destruct (str_eqb_spec (op_file o) fn) as [X|X]; [|reflexivity]. cbn [andb].
  destruct (str_eqb_spec (op_group o) []) as [Y|Y]; cbn [negb andb]; [reflexivity|]. destruct (gpath_eqb_spec (norm (op_group o)) (norm g)) as [Z|Z]; [|reflexivity].
  exfalso. destruct a as [a|]; [|discriminate T]. apply (N (n, o, Some a) (or_introl eq_refl)). split; [split; [exact W|split; assumption]|]. cbn [snd].
  destruct (answer_group _ _ _ _ _ _ _ _ H E T W) as [[P _]|[[_ P]|P]]; [contradiction|congruence|congruence].
Qed.
Lemma usable_ok fn : usable_name fn <-> name_ok fn = true.
Proof.
  unfold usable_name, name_ok. rewrite !andb_true_iff, !negb_true_iff, has_char_false. destruct (str_eqb_spec fn []) as [->|N]; [intuition congruence|].
  destruct (utf8_len fn) as [n|e]; split.
  - intros (_ & B & m & E & L). injection E as <-. repeat split; [exact B|apply Nat.leb_le, L].
  - intros ((_ & B) & L). repeat split; [exact N|exact B|]. exists n. split; [reflexivity|apply Nat.leb_le, L].
  - intros (_ & _ & m & E & _). discriminate E.
  - intros (_ & E). discriminate E.
Qed.
(** a key of a file that nobody has locked has the value of the last successful operation on it in the order of the lock, or its initial one *)
Theorem C71_last_write d0 ps s fn g : steps (start d0 ps) s -> holder fn s = None -> g <> [] -> usable_name fn ->
  (forall l1 n o l2, sh_log s = l1 ++ (n, o, Some (Ok tt)) :: l2 -> same_key o fn g -> (forall e, In e l2 -> ~ wrote e fn g) -> get_value (sh_disk s) fn g = Ok (value_left o)) /\
  ((forall e, In e (sh_log s) -> ~ wrote e fn g) -> get_value (sh_disk s) fn g = get_value d0 fn g).
Proof.
  intros H F Hg K. apply usable_ok in K. assert (G : get_value (sh_disk s) fn g = get_value (serial (sh_log s) d0) fn g).
  { unfold get_value, get_attr, open_r. rewrite (C71_serial _ _ _ _ H F). reflexivity. }
  rewrite G. split.
  - intros l1 n o l2 E (W & X & Z) N. assert (E' : sh_log s = (l1 ++ [(n, o, Some (Ok tt))]) ++ l2) by (rewrite <- app_assoc; exact E).
    rewrite E', serial_app, (serial_value d0 ps s _ _ _ _ H E' Hg K N), serial_app. cbn [serial took_effect]. rewrite alone_value by assumption.
    destruct (answer_group _ _ _ _ _ _ _ _ H E eq_refl W) as [[_ P]|[[P _]|P]]; [contradiction| |congruence].
    rewrite X, str_eqb_refl. destruct (str_eqb_spec (op_group o) []); [contradiction|]. rewrite Z, gpath_eqb_refl. reflexivity.
  - intros N. exact (serial_value d0 ps s [] (sh_log s) fn g H eq_refl Hg K N).
Qed.
(** once the threads are over, no lock is held: the above is about the final state *)
Theorem C71_final d0 ps s fn : steps (start d0 ps) s -> all_over s -> holder fn s = None.
Proof.
  intros H A. destruct (holder fn s) as [n|] eqn:E; [|reflexivity]. destruct (inv_held _ _ (inv_reach _ _ _ H) fn n E) as (t & o & Hn & C & _).
  destruct (A n t Hn) as [R _]. rewrite R in C. discriminate C.
Qed.

(** ** C72: readers take no lock *)
Lemma get_value_vat d fn g : g <> [] -> get_value d fn g = Ok (if name_ok fn then vat (dget fn d) (norm g) else None).
Proof.
  intros Hg. unfold get_value. rewrite get_attr_dattrs by (reflexivity || assumption). unfold dattrs, open_r. cbn [fst snd]. destruct (name_ok fn); [|reflexivity].
  unfold vat. destruct (dget fn d); reflexivity.
Qed.
Lemma seen d0 s fn g : Inv d0 s -> vat (dget fn (sh_disk s)) (norm g) = vat (dget fn (serial (sh_log s) d0)) (norm g) \/
  (exists m u o, nth_error (sh_threads s) m = Some u /\ holds u fn /\ running (th_pc u) = Some o /\ norm (op_group o) = norm g /\
     (vat (dget fn (sh_disk s)) (norm g) = None \/ vat (dget fn (sh_disk s)) (norm g) = value_left o)).
Proof.
  intros I. rewrite serial_fser. destruct (holder fn s) as [m|] eqn:Hh; [|left; rewrite (inv_free _ _ I fn Hh); reflexivity].
  destruct (inv_held _ _ I fn m Hh) as (u & o & Hu & C & <-). pose proof (inv_file _ _ I _ _ Hu) as HF.
  assert (B : between o (serial_at d0 (sh_log s) (op_file o)) (dget (op_file o) (sh_disk s))).
  { destruct (th_pc u) as [|o'|o' rest|o' a|o' a|o'|o']; cbn [crit] in C; try discriminate C; injection C as ->; cbn [content] in HF.
    - rewrite HF. intros q. left. reflexivity.
    - destruct HF as (f & a & f' & -> & _ & _ & _ & _ & B & _). exact B.
    - apply HF.
    - destruct HF as [[_ ->]|HF]; [intros q; left; reflexivity|apply HF]. }
  destruct (B (norm g)) as [X|[X Y]]; [left; exact X|]. right. exists m, u, o. split; [exact Hu|]. unfold holds. 
  split; [destruct (th_pc u); try discriminate C; injection C as ->; reflexivity|]. split; [destruct (th_pc u); try discriminate C; exact C|]. split; [symmetry; exact X|exact Y].
Qed.
(** A reader answers what the key has in the order of the lock, unless some thread is just writing this very key: then it may also see the new value, or nothing *)
Theorem C72_partial d0 ps s n s' t t' fn g a : steps (start d0 ps) s -> step n s s' -> nth_error (sh_threads s) n = Some t -> nth_error (sh_threads s') n = Some t' ->
  th_done t' = (ORead fn g, a) :: th_done t -> g <> [] ->
  a = get_value (serial (sh_log s) d0) fn g \/
  (exists m u o, nth_error (sh_threads s) m = Some u /\ holds u fn /\ running (th_pc u) = Some o /\ norm (op_group o) = norm g /\ (a = Ok None \/ a = Ok (value_left o))).
Proof.
  intros H S Ht Ht' D Hg. apply inv_reach in H.
  assert (X : a = get_value (sh_disk s) fn g).
  { destruct S as [t0 o l Hn R T W Hh|t0 o l m Hn R T W Hh|t0 o Hn R K|t0 o Hn R K|t0 o m rest f r f' Hn R Hf M|t0 o Hn R|t0 o b Hn R|t0 o b Hn R|t0 o l f Hn R T W O|t0 o l Hn R T W O|t0 o f Hn R O|t0 o f b Hn R O G];
      rewrite Ht in Hn; injection Hn as <-; cbn [set_shlog set_lock set_disk_of set_thread sh_threads] in Ht'; rewrite (nth_upd_same _ _ _ _ Ht) in Ht'; injection Ht' as <-;
      try (cbn [next goto finish th_done] in D; apply (f_equal (@List.length _)) in D; cbn [List.length] in D; lia).
    - cbn [next finish th_done] in D. injection D as -> _. discriminate W.
    - cbn [finish th_done] in D. injection D as -> _. destruct (inv_crit _ _ H n t _ Ht ltac:(rewrite R; reflexivity)) as (W & _). discriminate W.
    - cbn [next finish th_done] in D. injection D as -> <-. cbn [op_file] in O. unfold get_value, get_attr. rewrite O. reflexivity.
    - unfold get_value, get_attr. destruct (str_eqb (op_group o) []) eqn:EG; [|destruct (fget (norm (op_group o)) f) as [b|] eqn:G].
      + cbn [finish th_done] in D. injection D as -> <-. cbn [op_file op_group] in *. rewrite O, EG. reflexivity.
      + cbn [goto th_done] in D. apply (f_equal (@List.length _)) in D. cbn [List.length] in D. lia.
      + cbn [finish th_done] in D. injection D as -> <-. cbn [op_file op_group] in *. rewrite O, EG, G. reflexivity.
    - cbn [finish th_done] in D. injection D as -> <-. cbn [op_file op_group] in *. unfold get_value, get_attr. rewrite O, G. destruct (str_eqb_spec g []); [contradiction|reflexivity]. }
  subst a. rewrite !get_value_vat by exact Hg. destruct (name_ok fn); [|left; reflexivity].
  destruct (seen d0 s fn g H) as [E|(m & u & o & Hu & Ho & Hr & En & E)]; [left; rewrite E; reflexivity|].
  right. exists m, u, o. repeat (split; [assumption|]). destruct E as [->| ->]; auto.
Qed.
(** ... so never a value that nobody stores: it is the initial one, or of an operation on this key in some thread's program *)
Lemma log_threads d0 ps s n o a : steps (start d0 ps) s -> In (n, o, a) (sh_log s) -> exists t, nth_error (sh_threads s) n = Some t.
Proof.
  intros H. assert (G : forall s0, steps s0 s -> (forall n o a, In (n, o, a) (sh_log s0) -> exists t, nth_error (sh_threads s0) n = Some t) -> forall n o a, In (n, o, a) (sh_log s) -> exists t, nth_error (sh_threads s) n = Some t).
  { clear. intros s0 H. induction H as [s|s n s' s'' H IH S]; intros B; [exact B|]. specialize (IH B). clear B H.
    assert (U : forall m (t : thread) t', nth_error (sh_threads s') m = Some t -> exists t'', nth_error (upd_nth n t' (sh_threads s')) m = Some t'').
    { intros m t t' E. rewrite nth_upd. destruct (Nat.eqb_spec n m) as [->|]; [rewrite E|]; eauto. }
    destruct S as [t o l Hn R T W Hh|t o l m Hn R T W Hh|t o Hn R K|t o Hn R K|t o m rest f r f' Hn R Hf M|t o Hn R|t o a Hn R|t o a Hn R|t o l f Hn R T W O|t o l Hn R T W O|t o f Hn R O|t o f a Hn R O G];
      cbn [set_shlog set_lock set_disk_of set_thread sh_threads sh_log]; intros k o' b Hin; try (destruct (IH _ _ _ Hin) as [u Hu]; exact (U k u _ Hu)).
    - apply in_app_iff in Hin. destruct Hin as [Hin|[E|[]]]; [destruct (IH _ _ _ Hin) as [u Hu]; exact (U k u _ Hu)|]. injection E as <- _ _. exact (U n t _ Hn).
    - assert (X : forall l, In (k, o', b) (answer_log n a l) -> exists b', In (k, o', b') l).
      { clear. induction l as [|[[m o] [c|]] l IH]; cbn [answer_log]; [intros []| |].
        - intros [E|H]; [exists b; left; exact E|]. destruct (IH H) as [b' H']. exists b'. right. exact H'.
        - destruct (Nat.eqb m n); (intros [E|H]; [injection E as <- <- _; exists None; left; reflexivity|]); [exists b; right; exact H|]. destruct (IH H) as [b' H']. exists b'. right. exact H'. }
      destruct (X _ Hin) as [b' Hb]. destruct (IH _ _ _ Hb) as [u Hu]. exact (U k u _ Hu). }
  exact (G _ H ltac:(intros ? ? ? []) n o a).
Qed.
Lemma in_program d0 ps s n t o : steps (start d0 ps) s -> nth_error (sh_threads s) n = Some t -> running (th_pc t) = Some o \/ In o (map fst (th_done t)) -> exists p, nth_error ps n = Some p /\ In o p.
Proof.
  intros H Hn C. destruct (inv2_reach _ _ _ H) as [HL _]. destruct (nth_error ps n) as [p|] eqn:Hp.
  - exists p. split; [reflexivity|]. destruct (C71_told _ _ _ _ _ H Hp) as (t' & Hn' & E & _). rewrite Hn in Hn'. injection Hn' as <-. rewrite E. apply in_app_iff. destruct C as [C|C].
    + right. rewrite C. left. reflexivity.
    + left. rewrite map_rev. apply in_rev in C. exact C.
  - exfalso. apply nth_error_None in Hp. assert (X : nth_error (sh_threads s) n <> None) by congruence. apply nth_error_Some in X. lia.
Qed.
Lemma logged_in_program d0 ps s n o a : steps (start d0 ps) s -> In (n, o, Some a) (sh_log s) -> took_effect (Some a) = true -> exists p, nth_error ps n = Some p /\ In o p.
Proof.
  intros H Hin T. destruct (log_threads _ _ _ _ _ _ H Hin) as [t Hn]. destruct (inv2_reach _ _ _ H) as [HL _]. destruct (nth_error ps n) as [p|] eqn:Hp.
  - destruct (C71_told _ _ _ _ _ H Hp) as (t' & Hn' & _ & E). rewrite Hn in Hn'. injection Hn' as <-. rewrite <- Hp. apply (in_program _ _ _ _ _ _ H Hn). right.
    assert (X : In (o, mapr (fun _ => None) a) (logged n (sh_log s))).
    { unfold logged. apply in_flat_map. exists (n, o, Some a). split; [exact Hin|]. rewrite Nat.eqb_refl, T. left. reflexivity. }
    rewrite <- E in X. unfold told in X. apply filter_In in X. destruct X as [X _]. apply in_rev in X. apply (in_map fst) in X. exact X.
  - exfalso. apply nth_error_None in Hp. assert (X : nth_error (sh_threads s) n <> None) by congruence. apply nth_error_Some in X. lia.
Qed.
Theorem C72_no_invention d0 ps s n s' t t' fn g v : steps (start d0 ps) s -> step n s s' -> nth_error (sh_threads s) n = Some t -> nth_error (sh_threads s') n = Some t' ->
  th_done t' = (ORead fn g, Ok (Some v)) :: th_done t -> g <> [] ->
  get_value d0 fn g = Ok (Some v) \/ exists p o, In p ps /\ In o p /\ same_key o fn g /\ value_left o = Some v.
Proof.
  intros H S Ht Ht' D Hg. destruct (C72_partial _ _ _ _ _ _ _ _ _ _ H S Ht Ht' D Hg) as [E|(m & u & o & Hu & Ho & Hr & En & E)].
  - destruct (name_ok fn) eqn:K; [|rewrite get_value_vat, K in E by exact Hg; discriminate E].
    assert (X : forall l1 l2, sh_log s = l1 ++ l2 -> get_value (serial l1 d0) fn g = Ok (Some v) -> get_value d0 fn g = Ok (Some v) \/ exists p o, In p ps /\ In o p /\ same_key o fn g /\ value_left o = Some v).
    { intros l1. induction l1 as [|[[k o] a] l1 IH] using rev_ind; intros l2 El G; [left; exact G|]. rewrite <- app_assoc in El. rewrite serial_app in G. cbn [serial] in G.
      destruct (took_effect a) eqn:T; [|exact (IH _ El G)]. destruct (writes o) eqn:W; [|destruct o; try discriminate W; exact (IH _ El G)].
      rewrite alone_value in G by assumption. destruct (str_eqb_spec (op_file o) fn) as [X|X]; cbn [andb] in G; [|exact (IH _ El G)].
      destruct (str_eqb_spec (op_group o) []) as [Y|Y]; cbn [negb andb] in G; [exact (IH _ El G)|]. destruct (gpath_eqb_spec (norm (op_group o)) (norm g)) as [Z|Z]; [|exact (IH _ El G)].
      right. destruct a as [a|]; [|discriminate T]. destruct (logged_in_program d0 ps s k o a H) as (p & Hp & Hin); [rewrite El; apply in_app_iff; right; left; reflexivity|exact T|].
      exists p, o. split; [exact (nth_error_In _ _ Hp)|]. split; [exact Hin|]. split; [split; [exact W|split; assumption]|]. congruence. }
    exact (X (sh_log s) [] (eq_sym (app_nil_r _)) (eq_sym E)).
  - destruct E as [E|E]; [discriminate E|]. right. destruct (in_program _ _ _ _ _ _ H Hu (or_introl Hr)) as (p & Hp & Hin). exists p, o. split; [exact (nth_error_In _ _ Hp)|]. split; [exact Hin|].
    assert (W : writes o = true /\ op_file o = fn).
    { assert (C : crit (th_pc u) = Some o) by (unfold holds in Ho; destruct (th_pc u); try destruct Ho; exact Hr). destruct (inv_crit _ _ (inv_reach _ _ _ H) _ _ _ Hu C) as (W & _). split; [exact W|].
      unfold holds in Ho. destruct (th_pc u); try destruct Ho; injection Hr as ->; reflexivity. }
    split; [split; [apply W|split; [apply W|exact En]]|congruence].
Qed.
(** An executable scheduler, for examples: thread [n] does its next step *)
Definition sched (n : nat) (s : shared) : option shared :=
  match nth_error (sh_threads s) n with
  | None => None
  | Some t =>
    match th_pc t with
    | Ready =>
      match th_todo t with
      | [] => None
      | o :: l =>
        if writes o then match holder (op_file o) s with
                         | None => Some (set_shlog (sh_log s ++ [(n, o, None)]) (set_lock (op_file o) (Some n) (set_thread n (next t l (Locked o)) s)))
                         | Some _ => Some (set_thread n (finish (next t l Ready) o (Err EOS)) s)
                         end
        else match open_r (sh_disk s) (op_file o) with
             | Some _ => Some (set_thread n (next t l (Reading o)) s)
             | None => Some (set_thread n (finish (next t l Ready) o (Ok None)) s)
             end
      end
    | Locked o => if name_ok (op_file o) then Some (set_disk_of (dset (op_file o) (open_a (sh_disk s) (op_file o)) (sh_disk s)) (set_thread n (goto t (Inside o (body o))) s))
                  else Some (set_thread n (goto t (Closed o (Err EOS))) s)
    | Inside o [] => Some (set_thread n (goto t (Leaving o (Ok tt))) s)
    | Inside o (m :: rest) =>
      match dget (op_file o) (sh_disk s) with
      | None => None
      | Some f => let rf := micro_step (op_group o) m rest f in
          Some (set_disk_of (dset (op_file o) (snd rf) (sh_disk s)) (set_thread n (goto t (match fst rf with Ok rest' => Inside o rest' | Err e => Leaving o (caught o e) end)) s))
      end
    | Leaving o a => Some (set_thread n (goto t (Closed o a)) s)
    | Closed o a => Some (set_shlog (answer_log n a (sh_log s)) (set_lock (op_file o) None (set_thread n (finish t o (mapr (fun _ => None) a)) s)))
    | Reading o => match open_r (sh_disk s) (op_file o) with
                   | None => None
                   | Some f => Some (set_thread n (if str_eqb (op_group o) [] then finish t o (Err EValue)
                                                   else match fget (norm (op_group o)) f with Some _ => goto t (Found o) | None => finish t o (Ok None) end) s)
                   end
    | Found o => match open_r (sh_disk s) (op_file o) with
                 | None => None
                 | Some f => match fget (norm (op_group o)) f with None => None | Some a => Some (set_thread n (finish t o (Ok (at_value a))) s) end
                 end
    end
  end.
Lemma sched_step n s s' : sched n s = Some s' -> step n s s'.
Proof.
  unfold sched. destruct (nth_error (sh_threads s) n) as [t|] eqn:Hn; [|discriminate]. destruct (th_pc t) as [|o|o [|m rest]|o a|o a|o|o] eqn:R.
  - destruct (th_todo t) as [|o l] eqn:T; [discriminate|]. destruct (writes o) eqn:W; [destruct (holder (op_file o) s) eqn:Hh|destruct (open_r (sh_disk s) (op_file o)) eqn:O]; intros E; injection E as <-.
    + eapply StTimeout; eassumption.
    + eapply StAcquire; eassumption.
    + eapply StReadOpen; eassumption.
    + eapply StReadMissing; eassumption.
  - destruct (name_ok (op_file o)) eqn:K; intros E; injection E as <-; [eapply StOpen|eapply StNoOpen]; try eassumption. left. exact K.
  - intros E; injection E as <-. eapply StEnd; eassumption.
  - destruct (dget (op_file o) (sh_disk s)) as [f|] eqn:Hf; [|discriminate]. cbv zeta. intros E; injection E as <-. eapply StCall; try eassumption. apply surjective_pairing.
  - intros E; injection E as <-. eapply StClose; eassumption.
  - intros E; injection E as <-. eapply StRelease; eassumption.
  - destruct (open_r (sh_disk s) (op_file o)) as [f|] eqn:O; [|discriminate]. intros E; injection E as <-. eapply StReadGroup; eassumption.
  - destruct (open_r (sh_disk s) (op_file o)) as [f|] eqn:O; [|discriminate]. destruct (fget (norm (op_group o)) f) as [a|] eqn:G; [|discriminate]. intros E; injection E as <-. eapply StReadAttr; eassumption.
Qed.
(** [l] says whose turn it is; a thread that is over passes *)
Fixpoint run_sched (l : list nat) (s : shared) : shared :=
  match l with [] => s | n :: l' => run_sched l' (match sched n s with Some s' => s' | None => s end) end.
Lemma steps_trans s s' s'' : steps s s' -> steps s' s'' -> steps s s''.
Proof. intros H1 H2. induction H2 as [|s' n s1 s2 H2 IH S]; [exact H1|]. eapply StepsTrans; [exact (IH H1)|exact S]. Qed.
Lemma run_steps l s : steps s (run_sched l s).
Proof.
  revert s. induction l as [|n l IH]; intros s; cbn [run_sched]; [apply StepsRefl|]. destruct (sched n s) as [s1|] eqn:S; [|apply IH].
  apply (steps_trans s s1); [eapply StepsTrans; [apply StepsRefl|exact (sched_step _ _ _ S)]|apply IH].
Qed.
(** "Never missing for a key that always had a value" is false: attributes are deleted and then written, and a reader may look in between *)
Definition torn_d0 : disk := snd (h5_set (u "con_a") (u "x") (Some (u "1")) (Some 0%Z) []).
Definition torn_ps : list (list op) := [[OSet (u "con_a") (u "x") (Some (u "2")) (Some 0%Z)]; [ORead (u "con_a") (u "x")]].
Definition torn : shared := run_sched [0;0;0;0;0;1;1;1;0;0;0;0;0;0;0;0] (start torn_d0 torn_ps).
Lemma torn_steps : steps (start torn_d0 torn_ps) torn.
Proof. apply run_steps. Qed.
Theorem C72_refuted : exists d0 ps s fn g, steps (start d0 ps) s /\ all_over s /\ get_value d0 fn g = Ok (Some (u "1")) /\
  ps = [[OSet fn g (Some (u "2")) (Some 0%Z)]; [ORead fn g]] /\
  (exists t, nth_error (sh_threads s) 1 = Some t /\ th_done t = [(ORead fn g, Ok None)]) /\ get_value (sh_disk s) fn g = Ok (Some (u "2")).
Proof.
  exists torn_d0, torn_ps, torn, (u "con_a"), (u "x"). split; [exact torn_steps|].
  split; [intros [|[|[|n]]] t H; vm_compute in H; try discriminate H; injection H as <-; split; reflexivity|].
  split; [vm_compute; reflexivity|]. split; [reflexivity|]. split; [eexists; split; vm_compute; reflexivity|vm_compute; reflexivity].
Qed.

(** ** C75: no deadlock, no endless run; the locks are given back *)
Lemma some_thread (P : thread -> Prop) l : (forall t, P t \/ ~ P t) -> (forall n t, nth_error l n = Some t -> P t) \/ exists n t, nth_error l n = Some t /\ ~ P t.
Proof.
  intros D. induction l as [|x l IH]; [left; intros [|n] t H; discriminate H|]. destruct (D x) as [X|X]; [|right; exists 0, x; auto].
  destruct IH as [IH|(n & t & H & N)]; [|right; exists (S n), t; auto]. left. intros [|n] t H; [injection H as <-; exact X|exact (IH n t H)].
Qed.
Theorem C75_no_deadlock d0 ps s : steps (start d0 ps) s -> ~ all_over s -> exists n t s', nth_error (sh_threads s) n = Some t /\ ~ waiting s t /\ step n s s'.
Proof.
  intros H N. apply inv_reach in H. destruct (some_thread (fun t => crit (th_pc t) = None) (sh_threads s)) as [F|(n & t & Hn & C)]; [intros t; destruct (crit (th_pc t)); [right; discriminate|left; reflexivity]| |].
  - destruct (some_thread over (sh_threads s)) as [A|(n & t & Hn & O)].
    { intros t. unfold over. destruct (th_pc t), (th_todo t); try (left; split; reflexivity); right; intros [X Y]; discriminate. }
    + contradiction (N A).
    + assert (W : ~ waiting s t).
      { intros (o & l & _ & _ & _ & X). destruct (holder (op_file o) s) as [m|] eqn:E; [|contradiction X; reflexivity]. destruct (inv_held _ _ H _ _ E) as (t' & o' & Ht' & C & _).
        rewrite (F _ _ Ht') in C. discriminate C. }
      destruct (can_step d0 s n t H Hn O W) as [s' S]. exists n, t, s'. auto.
  - assert (R : th_pc t <> Ready) by (intros R; rewrite R in C; apply C; reflexivity).
    assert (W : ~ waiting s t) by (intros (o & l & R' & _); contradiction). assert (O : ~ over t) by (intros [R' _]; contradiction).
    destruct (can_step d0 s n t H Hn O W) as [s' S]. exists n, t, s'. auto.
Qed.
Theorem C75_terminates d0 ps k s : steps_n k (start d0 ps) s -> k <= 13 * List.length (List.concat ps).
Proof.
  intros H. apply size_steps in H. assert (E : size (start d0 ps) = 13 * List.length (List.concat ps)); [|lia]. clear. unfold size, start. cbn [sh_threads].
  induction ps as [|p ps IH]; [reflexivity|]. cbn [map fold_right List.concat]. rewrite app_length, IH. unfold todo_size. cbn [th_pc th_todo]. lia.
Qed.
(** so every run that cannot go on has done and answered everything, with no lock held *)
Theorem C75_completes d0 ps s : steps (start d0 ps) s -> (forall n s', ~ step n s s') ->
  all_over s /\ (forall fn, holder fn s = None) /\ forall n p, nth_error ps n = Some p -> exists t, nth_error (sh_threads s) n = Some t /\ map fst (rev (th_done t)) = p.
Proof.
  intros H N. assert (A : all_over s).
  { destruct (some_thread over (sh_threads s)) as [A|(n & t & Hn & O)]; [|exact A|].
    - intros t. unfold over. destruct (th_pc t), (th_todo t); try (left; split; reflexivity); right; intros [X Y]; discriminate.
    - exfalso. destruct (C75_no_deadlock d0 ps s H) as (m & t' & s' & _ & _ & S); [intros A; exact (O (A n t Hn))|]. exact (N m s' S). }
  split; [exact A|]. split; [intros fn; exact (C71_final _ _ _ fn H A)|]. intros n p Hp. destruct (C71_told _ _ _ _ _ H Hp) as (t & Hn & E & _). exists t. split; [exact Hn|].
  destruct (A n t Hn) as [R T]. rewrite R, T in E. cbn [running app] in E. rewrite app_nil_r in E. symmetry. exact E.
Qed.

(** ** A case: two writers and a deleter of one key, one of another file, and a reader; the second writer waits, then times out *)
Definition race_ps : list (list op) :=
  [[OSet (u "con_a") (u "x") (Some (u "2")) (Some 1%Z)]; [OSet (u "con_a") (u "x") (Some (u "3")) (Some 1%Z); ODelete (u "con_a") (u "x")];
   [OSet (u "con_a") (u "y/z") (Some (u "4")) None]; [ORead (u "con_a") (u "x"); OSet (u "con_b") (u "x") (Some (u "5")) (Some 1%Z)]].
Definition race_order : list nat := [0;0;3;0;0;3;3;1;0;3;0;3;0;3;0;3;0;3;0;3;0;3;0;0;3;0;2;2;2;2;2;2;2;2;2;2;2;3;3;3;1;1;1;1;1;1;1;1].
Definition race : shared := run_sched race_order (start torn_d0 race_ps).
Example C71_example : steps (start torn_d0 race_ps) race /\ all_over race /\ map (fun e => fst (fst e)) (sh_log race) = [0; 3; 2; 1] /\
  holder (u "con_a") race = None /\ get_value torn_d0 (u "con_a") (u "x") = Ok (Some (u "1")) /\
  get_value (sh_disk race) (u "con_a") (u "x") = Ok None /\ get_value (sh_disk race) (u "con_a") (u "y/z") = Ok (Some (u "4")) /\ get_value (sh_disk race) (u "con_b") (u "x") = Ok (Some (u "5")) /\
  map (fun t => map snd (th_done t)) (sh_threads race) = [[Ok None]; [Ok None; Err EOS]; [Ok None]; [Ok None; Ok (Some (u "1"))]].
Proof.
  split; [apply run_steps|]. split; [intros [|[|[|[|[|n]]]]] t H; vm_compute in H; try discriminate H; injection H as <-; split; reflexivity|]. vm_compute. repeat (split; [reflexivity|]). reflexivity.
Qed.
(** in the middle: thread 0 writes, thread 1 waits for it, the others can go on *)
Definition race_mid : shared := run_sched [0;0;3;0;0;3] (start torn_d0 race_ps).
Example C75_example : steps (start torn_d0 race_ps) race_mid /\ holder (u "con_a") race_mid = Some 0 /\ ~ all_over race_mid /\
  (exists t, nth_error (sh_threads race_mid) 1 = Some t /\ waiting race_mid t) /\ steps_n 2 (start torn_d0 race_ps) (run_sched [0;0] (start torn_d0 race_ps)).
Proof.
  split; [apply run_steps|]. split; [vm_compute; reflexivity|]. split.
  { intros A. destruct (nth_error (sh_threads race_mid) 1) as [t|] eqn:E; [|vm_compute in E; discriminate E]. destruct (A _ _ E) as [_ X]. vm_compute in E. injection E as <-. discriminate X. }
  split.
  { eexists. split; [vm_compute; reflexivity|]. eexists _, _. split; [reflexivity|]. split; [reflexivity|]. split; [reflexivity|]. vm_compute. discriminate. }
  eapply StepsNS; [eapply StepsNS; [apply StepsN0|]|].
  - apply (sched_step 0 _ (run_sched [0] (start torn_d0 race_ps))). reflexivity.
  - apply (sched_step 0). reflexivity.
Qed.
Print Assumptions C71_exclusive.
Print Assumptions C71_serial.
Print Assumptions C71_answers.
Print Assumptions C71_told.
Print Assumptions C71_last_write.
Print Assumptions C71_final.
Print Assumptions C72_partial.
Print Assumptions C72_no_invention.
Print Assumptions C72_refuted.
Print Assumptions C75_no_deadlock.
Print Assumptions C75_terminates.
Print Assumptions C75_completes.
