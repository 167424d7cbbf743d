(** * The invariant of concurrent threads *)
From Verif Require Import Model.Base Model.State Model.Value Model.Encoder Model.Hdf5 Model.Locks Spec.LockSpec Proofs.BaseFacts Proofs.DiskFacts.
From Coq Require Import Lia.

(** ** Lists *)
Lemma nth_upd {A} n (x : A) l m : nth_error (upd_nth n x l) m = if Nat.eqb n m then match nth_error l n with Some _ => Some x | None => None end else nth_error l m.
Proof.
  revert n m. induction l as [|y l IH]; intros [|n] [|m]; cbn [upd_nth nth_error Nat.eqb]; try reflexivity.
  - destruct (Nat.eqb n m); reflexivity.
  - apply IH.
Qed.
Lemma nth_upd_same {A} n (x y : A) l : nth_error l n = Some y -> nth_error (upd_nth n x l) n = Some x.
Proof. intros H. rewrite nth_upd, Nat.eqb_refl, H. reflexivity. Qed.
Lemma nth_upd_other {A} n (x : A) l m : n <> m -> nth_error (upd_nth n x l) m = nth_error l m.
Proof. intros H. rewrite nth_upd. destruct (Nat.eqb_spec n m); [contradiction|reflexivity]. Qed.
Lemma upd_length {A} n (x : A) l : List.length (upd_nth n x l) = List.length l.
Proof. revert n. induction l; intros [|n]; cbn; auto. Qed.

(** ** Files *)
Lemma fset_twice p a b f : fset p a (fset p b f) = fset p a f.
Proof.
  induction f as [|[q c] f IH]; cbn [fset].
  - rewrite gpath_eqb_refl. reflexivity.
  - destruct (gpath_eqb_spec p q) as [->|N]; cbn [fset]; [rewrite gpath_eqb_refl; reflexivity|].
    destruct (gpath_eqb_spec p q); [contradiction|]. rewrite IH. reflexivity.
Qed.
Lemma fset_same p a f : fget p f = Some a -> fset p a f = f.
Proof.
  induction f as [|[q c] f IH]; cbn [fset fget]; [discriminate|].
  destruct (gpath_eqb_spec p q) as [->|N]; [intros E; injection E as ->; reflexivity|intros E; rewrite IH; auto].
Qed.
Lemma ensure_has f p : exists a, fget p (ensure f p) = Some a.
Proof. unfold ensure. destruct (fget p f) as [a|] eqn:E; [eauto|]. rewrite fget_fset, gpath_eqb_refl. eauto. Qed.
Lemma ensure_keeps f p q a : fget q f = Some a -> fget q (ensure f p) = Some a.
Proof.
  intros H. unfold ensure. destruct (fget p f) eqn:E; [exact H|]. rewrite fget_fset. destruct (gpath_eqb_spec q p) as [->|]; [congruence|exact H].
Qed.
Lemma fold_keeps l f q a : fget q f = Some a -> fget q (fold_left ensure l f) = Some a.
Proof. revert f. induction l as [|r l IH]; intros f H; cbn [fold_left]; [exact H|]. apply IH, ensure_keeps, H. Qed.
Lemma require_keeps f p q a : fget q f = Some a -> fget q (require_group f p) = Some a.
Proof. apply fold_keeps. Qed.
Lemma fold_has l f q : In q l -> exists a, fget q (fold_left ensure l f) = Some a.
Proof.
  revert f. induction l as [|r l IH]; intros f H; [destruct H|]. cbn [fold_left]. destruct H as [->|H]; [|apply IH, H].
  destruct (ensure_has f q) as [a E]. exists a. apply fold_keeps, E.
Qed.
Lemma prefixes_self p : In p (prefixes p).
Proof. induction p as [|x p IH]; cbn [prefixes]; [left; reflexivity|]. right. apply in_map, IH. Qed.
Lemma require_has f p : exists a, fget p (require_group f p) = Some a.
Proof. apply fold_has, prefixes_self. Qed.
Lemma ensure_idem f q a : fget q f = Some a -> ensure f q = f.
Proof. intros H. unfold ensure. rewrite H. reflexivity. Qed.
Lemma fold_idem l f : (forall q, In q l -> exists a, fget q f = Some a) -> fold_left ensure l f = f.
Proof.
  induction l as [|r l IH]; intros H; cbn [fold_left]; [reflexivity|]. destruct (H r (or_introl eq_refl)) as [a E]. rewrite (ensure_idem _ _ _ E).
  apply IH. intros q Hq. apply H. right. exact Hq.
Qed.
Lemma require_idem f p q a : require_group (fset q a (require_group f p)) p = fset q a (require_group f p).
Proof.
  unfold require_group at 1. apply fold_idem. intros r Hr. rewrite fget_fset. destruct (gpath_eqb r q); [eauto|]. apply fold_has, Hr.
Qed.

(** ** An operation on its own file *)
Definition fapply (o : op) (mf : option hfile) : result unit * option hfile :=
  let f := match mf with Some f => f | None => new_file end in
  if negb (name_ok (op_file o)) then (Err EOS, mf)
  else match o with
       | ORead _ _ => (Ok tt, mf)
       | OSet _ g v b => if str_eqb g [] then (Err EValue, Some f) else (Ok tt, Some (write_block (write_value f (norm g) v) (norm g) b))
       | ODelete _ g => if str_eqb g [] then (Err EValue, Some f)
                        else match fget (norm g) f with Some (mkAttrs (Some _) _) => (Ok tt, Some (fset (norm g) no_attrs f)) | _ => (Ok tt, Some f) end
       end.
Lemma alone_own o d : writes o = true -> fst (alone o d) = fst (fapply o (dget (op_file o) d)) /\ dget (op_file o) (snd (alone o d)) = snd (fapply o (dget (op_file o) d)).
Proof.
  intros H. destruct o as [fn g v b|fn g|fn g]; [| |discriminate H]; cbn [alone op_file]; unfold fapply; cbn [op_file]; cbv zeta.
  - unfold h5_set. destruct (name_ok fn); cbn [negb]; [|split; reflexivity]. unfold open_a. cbv zeta.
    destruct (str_eqb g []); cbn [fst snd]; rewrite dget_dset_same; split; destruct (dget fn d); reflexivity.
  - unfold h5_delete. destruct (name_ok fn); cbn [negb]; [|split; reflexivity]. unfold open_a. cbv zeta.
    destruct (str_eqb g []); cbn [fst snd]; [rewrite dget_dset_same; split; destruct (dget fn d); reflexivity|].
    destruct (fget (norm g) match dget fn d with Some f => f | None => new_file end) as [[[x|] y]|]; cbn [fst snd]; rewrite dget_dset_same; split; reflexivity.
Qed.
Lemma alone_other o d fn : fn <> op_file o -> dget fn (snd (alone o d)) = dget fn d.
Proof.
  intros N. destruct o as [fn' g v b|fn' g|fn' g]; cbn [alone op_file] in *; [| |reflexivity].
  - unfold h5_set. destruct (name_ok fn'); cbn [negb]; [|reflexivity]. cbv zeta. destruct (str_eqb g []); cbn [snd]; apply dget_dset_other, N.
  - unfold h5_delete. destruct (name_ok fn'); cbn [negb]; [|reflexivity]. cbv zeta. destruct (str_eqb g []); cbn [snd]; [apply dget_dset_other, N|].
    destruct (fget (norm g) (open_a d fn')) as [[[x|] y]|]; cbn [snd]; apply dget_dset_other, N.
Qed.

(** the calls of the body that remain, without interference *)
Inductive runs (o : op) : list micro -> hfile -> result unit -> hfile -> Prop :=
| RunNil f : runs o [] f (Ok tt) f
| RunCall m rest f rest' f1 a f' : micro_step (op_group o) m rest f = (Ok rest', f1) -> runs o rest' f1 a f' -> runs o (m :: rest) f a f'
| RunErr m rest f e f1 : micro_step (op_group o) m rest f = (Err e, f1) -> runs o (m :: rest) f (caught o e) f1.
Lemma step_has g m rest f r f' q a : micro_step g m rest f = (r, f') -> fget q f = Some a -> exists b, fget q f' = Some b.
Proof.
  unfold micro_step. cbv zeta. destruct (str_eqb g []); [intros E; injection E as <- <-; eauto|].
  destruct m as [| | |w| | |w]; try (intros E; injection E as <- <-; intros H; exists a; apply require_keeps, H);
    (destruct (fget (norm g) f) as [[v b]|] eqn:G; [|intros E; injection E as <- <-; eauto]);
    try destruct v; try destruct b; intros E; injection E as <- <-; intros H; try (eauto; fail); rewrite fget_fset; destruct (gpath_eqb q (norm g)); eauto.
Qed.
Lemma check_value_code o v rest f : op_group o <> [] -> forall a f', runs o rest (write_value f (norm (op_group o)) v) a f' -> runs o (write_value_code v ++ rest) f a f'.
Proof.
  intros N a f' H. unfold write_value_code. cbn [app]. destruct (str_eqb_spec (op_group o) []) as [|_]; [contradiction|].
  eapply RunCall; [unfold micro_step; cbv zeta; destruct (str_eqb_spec (op_group o) []); [contradiction|reflexivity]|].
  destruct (require_has f (norm (op_group o))) as [[x b] E].
  assert (A : attrs_at (require_group f (norm (op_group o))) (norm (op_group o)) = mkAttrs x b) by (unfold attrs_at; rewrite E; reflexivity).
  unfold write_value in H. cbv zeta in H. rewrite A in H. cbn [at_block] in H.
  eapply RunCall; [unfold micro_step; cbv zeta; destruct (str_eqb_spec (op_group o) []); [contradiction|]; rewrite E; reflexivity|].
  destruct x as [x|].
  - eapply RunCall; [unfold micro_step; cbv zeta; destruct (str_eqb_spec (op_group o) []); [contradiction|]; rewrite E; reflexivity|].
    destruct v as [y|]; cbn [app]; [|exact H]. eapply RunCall; [unfold micro_step; cbv zeta; destruct (str_eqb_spec (op_group o) []); [contradiction|]; rewrite fget_fset, gpath_eqb_refl; reflexivity|].
    rewrite fset_twice. exact H.
  - cbn [tl app]. destruct v as [y|]; cbn [app].
    + eapply RunCall; [unfold micro_step; cbv zeta; destruct (str_eqb_spec (op_group o) []); [contradiction|]; rewrite E; reflexivity|]. exact H.
    + rewrite (fset_same _ _ _ E) in H. exact H.
Qed.
Lemma check_block_code o v rest f : op_group o <> [] -> forall a f', runs o rest (write_block f (norm (op_group o)) v) a f' -> runs o (write_block_code v ++ rest) f a f'.
Proof.
  intros N a f' H. unfold write_block_code. cbn [app]. destruct (str_eqb_spec (op_group o) []) as [|_]; [contradiction|].
  eapply RunCall; [unfold micro_step; cbv zeta; destruct (str_eqb_spec (op_group o) []); [contradiction|reflexivity]|].
  destruct (require_has f (norm (op_group o))) as [[x b] E].
  assert (A : attrs_at (require_group f (norm (op_group o))) (norm (op_group o)) = mkAttrs x b) by (unfold attrs_at; rewrite E; reflexivity).
  unfold write_block in H. cbv zeta in H. rewrite A in H. cbn [at_value] in H.
  eapply RunCall; [unfold micro_step; cbv zeta; destruct (str_eqb_spec (op_group o) []); [contradiction|]; rewrite E; reflexivity|].
  destruct b as [b|].
  - eapply RunCall; [unfold micro_step; cbv zeta; destruct (str_eqb_spec (op_group o) []); [contradiction|]; rewrite E; reflexivity|].
    destruct v as [y|]; cbn [app]; [|exact H]. eapply RunCall; [unfold micro_step; cbv zeta; destruct (str_eqb_spec (op_group o) []); [contradiction|]; rewrite fget_fset, gpath_eqb_refl; reflexivity|].
    rewrite fset_twice. exact H.
  - cbn [tl app]. destruct v as [y|]; cbn [app].
    + eapply RunCall; [unfold micro_step; cbv zeta; destruct (str_eqb_spec (op_group o) []); [contradiction|]; rewrite E; reflexivity|]. exact H.
    + rewrite (fset_same _ _ _ E) in H. exact H.
Qed.
(** the body does what the operation does alone *)
Lemma body_runs o mf : writes o = true -> name_ok (op_file o) = true ->
  exists a f', fapply o mf = (a, Some f') /\ runs o (body o) (match mf with Some f => f | None => new_file end) a f' /\ a <> Err EOS.
Proof.
  intros W K. unfold fapply. rewrite K. cbn [negb]. cbv zeta. set (f := match mf with Some f => f | None => new_file end).
  destruct o as [fn g v b|fn g|fn g]; [| |discriminate W].
  - destruct (str_eqb_spec g []) as [->|N].
    + exists (Err EValue), f. split; [reflexivity|]. split; [|discriminate]. unfold body, write_value_code. cbn [app].
      change (Err EValue) with (caught (OSet fn [] v b) EValue). apply RunErr. reflexivity.
    + eexists (Ok tt), _. split; [reflexivity|]. split; [|discriminate]. unfold body. apply check_value_code; [exact N|]. cbn [op_group].
      rewrite <- (app_nil_r (write_block_code b)). apply check_block_code; [exact N|]. apply RunNil.
  - destruct (str_eqb_spec g []) as [->|N].
    + exists (Err EValue), f. split; [reflexivity|]. split; [|discriminate]. unfold body.
      change (Err EValue) with (caught (ODelete fn []) EValue). apply RunErr. reflexivity.
    + destruct (fget (norm g) f) as [[[x|] y]|] eqn:E.
      * eexists (Ok tt), _. split; [reflexivity|]. split; [|discriminate]. unfold body.
        eapply RunCall; [unfold micro_step; cbv zeta; cbn [op_group]; destruct (str_eqb_spec g []); [contradiction|]; rewrite E; reflexivity|].
        destruct y as [y|].
        -- eapply RunCall; [unfold micro_step; cbv zeta; cbn [op_group]; destruct (str_eqb_spec g []); [contradiction|]; rewrite fget_fset, gpath_eqb_refl; reflexivity|].
           rewrite fset_twice. apply RunNil.
        -- change (Ok tt) with (caught (ODelete fn g) EKey). apply RunErr. unfold micro_step; cbv zeta; cbn [op_group]; destruct (str_eqb_spec g []); [contradiction|]; rewrite fget_fset, gpath_eqb_refl; reflexivity.
      * eexists (Ok tt), f. split; [reflexivity|]. split; [|discriminate]. unfold body.
        change (Ok tt) with (caught (ODelete fn g) EKey). apply RunErr. unfold micro_step; cbv zeta; cbn [op_group]; destruct (str_eqb_spec g []); [contradiction|]; rewrite E; reflexivity.
      * eexists (Ok tt), f. split; [reflexivity|]. split; [|discriminate]. unfold body.
        change (Ok tt) with (caught (ODelete fn g) EKey). apply RunErr. unfold micro_step; cbv zeta; cbn [op_group]; destruct (str_eqb_spec g []); [contradiction|]; rewrite E; reflexivity.
Qed.

(** ** The invariant *)
Definition entry : Type := nat * op * option (result unit).
Definition e_op (e : entry) : op := snd (fst e).
Definition e_ans (e : entry) : option (result unit) := snd e.
Fixpoint fser (fn : pystr) (log : list entry) (mf : option hfile) : option hfile :=
  match log with
  | [] => mf
  | (_, o, a) :: l => fser fn l (if (took_effect a && str_eqb (op_file o) fn)%bool then snd (fapply o mf) else mf)
  end.
Lemma fser_app fn l1 l2 mf : fser fn (l1 ++ l2) mf = fser fn l2 (fser fn l1 mf).
Proof. revert mf. induction l1 as [|[[n o] a] l1 IH]; intros mf; cbn [fser app]; auto. Qed.
Lemma alone_dget o d fn : dget fn (snd (alone o d)) = if str_eqb (op_file o) fn then snd (fapply o (dget fn d)) else dget fn d.
Proof.
  destruct (str_eqb_spec (op_file o) fn) as [<-|N]; [|apply alone_other; congruence].
  destruct (writes o) eqn:W; [apply alone_own, W|]. destruct o; try discriminate W. unfold fapply. cbn [alone]. destruct (name_ok _); reflexivity.
Qed.
Lemma serial_fser fn log d : dget fn (serial log d) = fser fn log (dget fn d).
Proof.
  revert d. induction log as [|[[n o] a] l IH]; intros d; cbn [serial fser]; [reflexivity|]. rewrite IH. f_equal.
  destruct (took_effect a); cbn [andb]; [|reflexivity]. apply alone_dget.
Qed.
Lemma fser_none fn l mf : (forall e, In e l -> op_file (e_op e) <> fn) -> fser fn l mf = mf.
Proof.
  revert mf. induction l as [|[[n o] a] l IH]; intros mf H; cbn [fser]; [reflexivity|].
  destruct (str_eqb_spec (op_file o) fn) as [E|N]; [exfalso; exact (H _ (or_introl eq_refl) E)|]. rewrite andb_false_r. apply IH. intros e He. apply H. right. exact He.
Qed.

Definition crit (p : pc) : option op := match p with Locked o | Inside o _ | Leaving o _ | Closed o _ => Some o | _ => None end.
Definition vat (mf : option hfile) (q : gpath) : option pystr := match mf with None => None | Some f => at_value (attrs_at f q) end.
Definition between (o : op) (F mf : option hfile) : Prop :=
  forall q, vat mf q = vat F q \/ (q = norm (op_group o) /\ (vat mf q = None \/ vat mf q = value_left o)).
Definition content (F : pystr -> option hfile) (d : disk) (p : pc) : Prop :=
  match p with
  | Ready => True
  | Locked o => dget (op_file o) d = F (op_file o)
  | Inside o rest => exists f a f', dget (op_file o) d = Some f /\ runs o rest f a f' /\ fapply o (F (op_file o)) = (a, Some f') /\ a <> Err EOS /\
      name_ok (op_file o) = true /\ between o (F (op_file o)) (Some f) /\ (forall x, In (MSetValue x) rest -> value_left o = Some x)
  | Leaving o a => fapply o (F (op_file o)) = (a, dget (op_file o) d) /\ a <> Err EOS /\ name_ok (op_file o) = true /\ between o (F (op_file o)) (dget (op_file o) d)
  | Closed o a => (a = Err EOS /\ dget (op_file o) d = F (op_file o)) \/
      (fapply o (F (op_file o)) = (a, dget (op_file o) d) /\ a <> Err EOS /\ name_ok (op_file o) = true /\ between o (F (op_file o)) (dget (op_file o) d))
  | Reading o => writes o = false /\ exists f, open_r d (op_file o) = Some f
  | Found o => writes o = false /\ exists f a, open_r d (op_file o) = Some f /\ fget (norm (op_group o)) f = Some a
  end.
Definition serial_at (d0 : disk) (log : list entry) (fn : pystr) : option hfile := fser fn log (dget fn d0).
Record Inv (d0 : disk) (s : shared) : Prop := {
  inv_crit : forall n t o, nth_error (sh_threads s) n = Some t -> crit (th_pc t) = Some o ->
    writes o = true /\ holder (op_file o) s = Some n /\
    exists l1 l2, sh_log s = l1 ++ (n, o, None) :: l2 /\ (forall e, In e l1 -> op_file (e_op e) = op_file o -> e_ans e <> None) /\ (forall e, In e l2 -> op_file (e_op e) <> op_file o);
  inv_held : forall fn n, holder fn s = Some n -> exists t o, nth_error (sh_threads s) n = Some t /\ crit (th_pc t) = Some o /\ op_file o = fn;
  inv_pending : forall n o, In (n, o, None) (sh_log s) -> exists t, nth_error (sh_threads s) n = Some t /\ crit (th_pc t) = Some o;
  inv_answers : forall l1 n o a l2, sh_log s = l1 ++ (n, o, Some a) :: l2 -> a <> Err EOS -> fst (fapply o (serial_at d0 l1 (op_file o))) = a;
  inv_free : forall fn, holder fn s = None -> dget fn (sh_disk s) = serial_at d0 (sh_log s) fn;
  inv_file : forall n t, nth_error (sh_threads s) n = Some t -> content (serial_at d0 (sh_log s)) (sh_disk s) (th_pc t) }.

Lemma inv_start d0 ps : Inv d0 (start d0 ps).
Proof.
  assert (R : forall n t, nth_error (sh_threads (start d0 ps)) n = Some t -> th_pc t = Ready).
  { intros n t H. cbn [start sh_threads] in H. rewrite nth_error_map in H. destruct (nth_error ps n); [injection H as <-; reflexivity|discriminate H]. }
  constructor.
  - intros n t o H C. rewrite (R n t H) in C. discriminate C.
  - intros fn n H. discriminate H.
  - intros n o [].
  - intros [|] n o a l2 H; discriminate H.
  - reflexivity.
  - intros n t H. rewrite (R n t H). exact I.
Qed.
(** Only the own file changes, and it loses no groups *)
Definition own_change (own : option op) (d d' : disk) : Prop :=
  (forall fn, (forall o, own = Some o -> fn <> op_file o) -> dget fn d' = dget fn d) /\
  (forall fn f, dget fn d = Some f -> exists f', dget fn d' = Some f' /\ forall q a, fget q f = Some a -> exists b, fget q f' = Some b).
Lemma own_refl own d : own_change own d d.
Proof. split; [reflexivity|]. intros fn f H. exists f. split; [exact H|eauto]. Qed.
Lemma open_r_some d fn f : open_r d fn = Some f <-> name_ok fn = true /\ dget fn d = Some f.
Proof. unfold open_r. destruct (name_ok fn); split; intros H; try discriminate H; try tauto. destruct H; discriminate. Qed.
Lemma content_frame F d d' own p : own_change own d d' -> (forall o o', own = Some o -> crit p = Some o' -> op_file o <> op_file o') -> content F d p -> content F d' p.
Proof.
  intros [Ho Hm] Hd. assert (K : forall o', crit p = Some o' -> dget (op_file o') d' = dget (op_file o') d).
  { intros o' C. apply Ho. intros o E X. symmetry in X. exact (Hd o o' E C X). }
  destruct p as [|o|o rest|o a|o a|o|o]; cbn [content crit] in *; try (rewrite (K o eq_refl)); auto.
  - intros [W [f H]]. split; [exact W|]. apply open_r_some in H. destruct H as [N H]. destruct (Hm _ _ H) as (f' & H' & _). exists f'. apply open_r_some. auto.
  - intros [W (f & a & H & G)]. split; [exact W|]. apply open_r_some in H. destruct H as [N H]. destruct (Hm _ _ H) as (f' & H' & M). destruct (M _ _ G) as [b G'].
    exists f', b. split; [apply open_r_some; auto|exact G'].
Qed.
Lemma crit_unique d0 s n m t t' o o' : Inv d0 s -> nth_error (sh_threads s) n = Some t -> nth_error (sh_threads s) m = Some t' -> crit (th_pc t) = Some o -> crit (th_pc t') = Some o' ->
  op_file o = op_file o' -> n = m.
Proof.
  intros I Hn Hm C C' E. destruct (inv_crit _ _ I _ _ _ Hn C) as (_ & H & _). destruct (inv_crit _ _ I _ _ _ Hm C') as (_ & H' & _). congruence.
Qed.
(** a step that takes or releases no lock *)
Lemma inv_local d0 s n t t' d' : Inv d0 s -> nth_error (sh_threads s) n = Some t -> crit (th_pc t') = crit (th_pc t) -> own_change (crit (th_pc t)) (sh_disk s) d' ->
  content (serial_at d0 (sh_log s)) d' (th_pc t') -> Inv d0 (set_disk_of d' (set_thread n t' s)).
Proof.
  intros I Hn C O H. constructor; cbn [set_disk_of set_thread sh_disk sh_locks sh_threads sh_log]; unfold holder; cbn [set_disk_of set_thread sh_disk sh_locks sh_threads sh_log].
  - intros m u o Hu Cu. rewrite nth_upd in Hu. destruct (Nat.eqb_spec n m) as [->|N].
    + rewrite Hn in Hu. injection Hu as <-. rewrite C in Cu. apply (inv_crit _ _ I _ _ _ Hn Cu).
    + apply (inv_crit _ _ I _ _ _ Hu Cu).
  - intros fn m Hh. destruct (inv_held _ _ I fn m Hh) as (u & o & Hu & Cu & E). destruct (Nat.eq_dec n m) as [->|N].
    + rewrite (nth_upd_same _ _ _ _ Hu). exists t', o. split; [reflexivity|]. split; [congruence|exact E].
    + rewrite nth_upd_other by exact N. eauto.
  - intros m o Ho. destruct (inv_pending _ _ I m o Ho) as (u & Hu & Cu). destruct (Nat.eq_dec n m) as [->|N].
    + rewrite (nth_upd_same _ _ _ _ Hu). exists t'. split; [reflexivity|]. congruence.
    + rewrite nth_upd_other by exact N. eauto.
  - apply (inv_answers _ _ I).
  - intros fn Hh. rewrite <- (inv_free _ _ I fn Hh). apply O. intros o E ->. destruct (inv_crit _ _ I _ _ _ Hn E) as (_ & X & _). unfold holder in X. rewrite X in Hh. discriminate Hh.
  - intros m u Hu. rewrite nth_upd in Hu. destruct (Nat.eqb_spec n m) as [->|N].
    + rewrite Hn in Hu. injection Hu as <-. exact H.
    + apply (content_frame _ _ _ _ _ O); [|apply (inv_file _ _ I _ _ Hu)]. intros o o' E E' X. apply N. exact (crit_unique _ _ _ _ _ _ _ _ I Hn Hu E E' X).
Qed.
Lemma inv_local0 d0 s n t t' : Inv d0 s -> nth_error (sh_threads s) n = Some t -> crit (th_pc t') = crit (th_pc t) ->
  content (serial_at d0 (sh_log s)) (sh_disk s) (th_pc t') -> Inv d0 (set_thread n t' s).
Proof. intros I Hn C H. exact (inv_local d0 s n t t' (sh_disk s) I Hn C (own_refl _ _) H). Qed.

Lemma content_ext F F' d p : (forall o, crit p = Some o -> F (op_file o) = F' (op_file o)) -> content F d p -> content F' d p.
Proof. intros H. destruct p; cbn [content crit] in *; try tauto; rewrite (H o eq_refl); tauto. Qed.
Lemma in_split_two {A} (l1 l1' l2 l2' : list A) x y : l1 ++ x :: l2 = l1' ++ y :: l2' -> x <> y -> (exists k, l1 = l1' ++ y :: k) \/ (exists k, l1' = l1 ++ x :: k).
Proof.
  revert l1'. induction l1 as [|a l1 IH]; intros [|b l1'] E N; cbn [app] in E; injection E; intros.
  - congruence.
  - right. exists l1'. subst. reflexivity.
  - left. exists l1. subst. reflexivity.
  - subst. destruct (IH l1' H N) as [[k ->]|[k ->]]; [left|right]; exists k; reflexivity.
Qed.
Lemma serial_at_app d0 l1 l2 fn : serial_at d0 (l1 ++ l2) fn = fser fn l2 (serial_at d0 l1 fn).
Proof. apply fser_app. Qed.
Lemma answer_log_spec n a l1 o l2 : (forall o', ~ In (n, o', None) l1) -> answer_log n a (l1 ++ (n, o, None) :: l2) = l1 ++ (n, o, Some a) :: l2.
Proof.
  induction l1 as [|[[m o'] [b|]] l1 IH]; intros H; cbn [answer_log app].
  - rewrite Nat.eqb_refl. reflexivity.
  - rewrite IH; [reflexivity|]. intros o'' X. apply (H o''). right. exact X.
  - destruct (Nat.eqb_spec m n) as [->|N]; [exfalso; apply (H o'); left; reflexivity|]. rewrite IH; [reflexivity|]. intros o'' X. apply (H o''). right. exact X.
Qed.
Lemma inv_acquire d0 s n t o l : Inv d0 s -> nth_error (sh_threads s) n = Some t -> th_pc t = Ready -> writes o = true -> holder (op_file o) s = None ->
  Inv d0 (set_shlog (sh_log s ++ [(n, o, None)]) (set_lock (op_file o) (Some n) (set_thread n (next t l (Locked o)) s))).
Proof.
  intros I Hn R W Hh.
  assert (S : forall fn, serial_at d0 (sh_log s ++ [(n, o, None)]) fn = serial_at d0 (sh_log s) fn) by (intros fn; rewrite serial_at_app; reflexivity).
  assert (A : forall e, In e (sh_log s) -> op_file (e_op e) = op_file o -> e_ans e <> None).
  { intros [[m o'] a] He E X. cbn in E, X. subst a. destruct (inv_pending _ _ I _ _ He) as (u & Hu & Cu). destruct (inv_crit _ _ I _ _ _ Hu Cu) as (_ & X & _). rewrite E, Hh in X. discriminate X. }
  constructor; cbn [set_shlog set_lock set_thread sh_disk sh_locks sh_threads sh_log]; unfold holder; cbn [set_shlog set_lock set_thread sh_disk sh_locks sh_threads sh_log].
  - intros m u o' Hu Cu. rewrite nth_upd in Hu. destruct (Nat.eqb_spec n m) as [->|N].
    + rewrite Hn in Hu. injection Hu as <-. cbn [next th_pc crit] in Cu. injection Cu as <-. split; [exact W|]. rewrite dget_dset_same. split; [reflexivity|].
      exists (sh_log s), []. split; [reflexivity|]. split; [exact A|intros e []].
    + destruct (inv_crit _ _ I _ _ _ Hu Cu) as (W' & H' & l1 & l2 & E & E1 & E2). split; [exact W'|].
      assert (D : op_file o' <> op_file o) by (intros X; rewrite X, Hh in H'; discriminate H').
      split; [rewrite dget_dset_other by exact D; exact H'|]. exists l1, (l2 ++ [(n, o, None)]). split; [rewrite E, <- app_assoc; reflexivity|]. split; [exact E1|].
      intros e He. apply in_app_iff in He. destruct He as [He|[<-|[]]]; [apply E2, He|]. cbn. congruence.
  - intros fn m Hm. rewrite dget_dset in Hm. destruct (str_eqb_spec fn (op_file o)) as [->|N].
    + injection Hm as <-. rewrite (nth_upd_same _ _ _ _ Hn). exists (next t l (Locked o)), o. auto.
    + destruct (inv_held _ _ I fn m Hm) as (u & o' & Hu & Cu & E). assert (m <> n) by (intros ->; rewrite Hn in Hu; injection Hu as <-; rewrite R in Cu; discriminate Cu).
      rewrite nth_upd_other by congruence. eauto.
  - intros m o' H. apply in_app_iff in H. destruct H as [H|[H|[]]].
    + destruct (inv_pending _ _ I m o' H) as (u & Hu & Cu). assert (m <> n) by (intros ->; rewrite Hn in Hu; injection Hu as <-; rewrite R in Cu; discriminate Cu).
      rewrite nth_upd_other by congruence. eauto.
    + injection H as <- <-. rewrite (nth_upd_same _ _ _ _ Hn). eexists. split; reflexivity.
  - intros l1 m o' a l2 E Na. destruct (in_split_two (sh_log s) l1 [] l2 (n, o, None) (m, o', Some a) E ltac:(discriminate)) as [[k Ek]|[k Ek]].
    + apply (inv_answers _ _ I _ _ _ _ _ Ek Na).
    + exfalso. rewrite Ek in E. rewrite <- app_assoc in E. cbn [app] in E. apply app_inv_head in E. injection E as E. destruct k; discriminate E.
  - intros fn Hf. rewrite S. rewrite dget_dset in Hf. destruct (str_eqb_spec fn (op_file o)) as [EE|N]; [discriminate Hf|]. apply (inv_free _ _ I fn Hf).
  - intros m u Hu. apply (content_ext (serial_at d0 (sh_log s))); [intros; symmetry; apply S|]. rewrite nth_upd in Hu. destruct (Nat.eqb_spec n m) as [->|N].
    + rewrite Hn in Hu. injection Hu as <-. cbn [next th_pc content]. apply (inv_free _ _ I _ Hh).
    + apply (inv_file _ _ I _ _ Hu).
Qed.
Lemma inv_release d0 s n t o a : Inv d0 s -> nth_error (sh_threads s) n = Some t -> th_pc t = Closed o a ->
  Inv d0 (set_shlog (answer_log n a (sh_log s)) (set_lock (op_file o) None (set_thread n (finish t o (mapr (fun _ => None) a)) s))).
Proof.
  intros I Hn R. assert (C : crit (th_pc t) = Some o) by (rewrite R; reflexivity).
  destruct (inv_crit _ _ I _ _ _ Hn C) as (W & Hh & l1 & l2 & EL & A1 & A2).
  assert (P : forall m o', In (m, o', None) (l1 ++ l2) -> m <> n).
  { intros m o' H ->. assert (H' : In (n, o', None) (sh_log s)) by (rewrite EL; apply in_app_iff in H; apply in_app_iff; destruct H; [left; assumption|right; right; assumption]).
    destruct (inv_pending _ _ I _ _ H') as (u & Hu & Cu). rewrite Hn in Hu. injection Hu as <-. rewrite C in Cu. injection Cu as <-.
    apply in_app_iff in H. destruct H as [H|H]; [exact (A1 _ H eq_refl eq_refl)|exact (A2 _ H eq_refl)]. }
  assert (EA : answer_log n a (sh_log s) = l1 ++ (n, o, Some a) :: l2).
  { rewrite EL. apply answer_log_spec. intros o' H. apply (P n o'); [apply in_app_iff; left; exact H|reflexivity]. }
  rewrite EA.
  assert (So : forall fn, fn <> op_file o -> serial_at d0 (l1 ++ (n, o, Some a) :: l2) fn = serial_at d0 (sh_log s) fn).
  { intros fn N. rewrite EL, !serial_at_app. cbn [fser]. destruct (str_eqb_spec (op_file o) fn); [congruence|]. rewrite !andb_false_r. reflexivity. }
  assert (S1 : serial_at d0 (sh_log s) (op_file o) = serial_at d0 l1 (op_file o)).
  { rewrite EL, serial_at_app. cbn [fser took_effect andb]. apply fser_none, A2. }
  pose proof (inv_file _ _ I _ _ Hn) as HF. rewrite R in HF. cbn [content] in HF. rewrite S1 in HF.
  assert (S2 : serial_at d0 (l1 ++ (n, o, Some a) :: l2) (op_file o) = dget (op_file o) (sh_disk s)).
  { rewrite serial_at_app. cbn [fser]. rewrite str_eqb_refl, andb_true_r. rewrite fser_none by exact A2. destruct HF as [[-> E]|(E & Na & _)]; [symmetry; exact E|].
    replace (took_effect (Some a)) with true by (destruct a as [|[]]; cbn; congruence). rewrite E. reflexivity. }
  assert (FA : a <> Err EOS -> fst (fapply o (serial_at d0 l1 (op_file o))) = a) by (intros Na; destruct HF as [[-> _]|(E & _)]; [contradiction|rewrite E; reflexivity]).
  constructor; cbn [set_shlog set_lock set_thread sh_disk sh_locks sh_threads sh_log]; unfold holder; cbn [set_shlog set_lock set_thread sh_disk sh_locks sh_threads sh_log].
  - intros m u o' Hu Cu. rewrite nth_upd in Hu. destruct (Nat.eqb_spec n m) as [->|N].
    + rewrite Hn in Hu. injection Hu as <-. discriminate Cu.
    + destruct (inv_crit _ _ I _ _ _ Hu Cu) as (W' & H' & k1 & k2 & E & E1 & E2). split; [exact W'|].
      assert (D : op_file o' <> op_file o) by (intros X; rewrite X, Hh in H'; congruence).
      split; [rewrite dget_dset_other by exact D; exact H'|]. rewrite EL in E.
      destruct (in_split_two l1 k1 l2 k2 (n, o, None) (m, o', None) E ltac:(congruence)) as [[k Ek]|[k Ek]].
      * subst l1. rewrite <- app_assoc in E. cbn [app] in E. apply app_inv_head in E. injection E as E.
        exists k1, (k ++ (n, o, Some a) :: l2). split; [rewrite <- app_assoc; reflexivity|]. split; [exact E1|].
        intros e He. apply in_app_iff in He. destruct He as [He|[<-|He]]; [|cbn; congruence|].
        -- apply E2. rewrite <- E. apply in_app_iff. left. exact He.
        -- apply E2. rewrite <- E. apply in_app_iff. right. right. exact He.
      * subst k1. rewrite <- app_assoc in E. cbn [app] in E. apply app_inv_head in E. injection E as E.
        exists (l1 ++ (n, o, Some a) :: k), k2. split; [rewrite <- app_assoc; cbn [app]; rewrite E; reflexivity|]. split; [|exact E2].
        intros e He. apply in_app_iff in He. destruct He as [He|[<-|He]]; [|cbn; congruence|]; intros X; apply E1; try exact X; apply in_app_iff; [left; exact He|right; right; exact He].
  - intros fn m Hm. rewrite dget_dset in Hm. destruct (str_eqb_spec fn (op_file o)) as [EE|N]; [discriminate Hm|].
    destruct (inv_held _ _ I fn m Hm) as (u & o' & Hu & Cu & E). assert (m <> n) by (intros ->; rewrite Hn in Hu; injection Hu as <-; congruence).
    rewrite nth_upd_other by congruence. eauto.
  - intros m o' H. assert (Hm : In (m, o', None) (l1 ++ l2)) by (apply in_app_iff in H; apply in_app_iff; destruct H as [H|[H|H]]; [left; exact H|discriminate H|right; exact H]).
    assert (H' : In (m, o', None) (sh_log s)) by (rewrite EL; apply in_app_iff in Hm; apply in_app_iff; destruct Hm; [left; assumption|right; right; assumption]).
    destruct (inv_pending _ _ I m o' H') as (u & Hu & Cu). rewrite nth_upd_other by (intros X; exact (P m o' Hm (eq_sym X))). eauto.
  - intros k1 m o' b k2 E Nb.
    assert (X : (n, o, Some a) = (m, o', Some b) /\ l1 = k1 \/ (exists k, l1 = k1 ++ (m, o', Some b) :: k) \/ (exists k, k1 = l1 ++ (n, o, Some a) :: k)).
    { clear -E. revert k1 E. induction l1 as [|x l1 IH]; intros [|y k1] E; cbn [app] in E; injection E; intros.
      - left. split; [congruence|reflexivity].
      - right. right. exists k1. subst. reflexivity.
      - right. left. exists l1. subst. reflexivity.
      - subst. destruct (IH k1 H) as [[X ->]|[[k ->]|[k ->]]]; [left; auto|right; left; exists k; reflexivity|right; right; exists k; reflexivity]. }
    destruct X as [[X <-]|[[k Ek]|[k Ek]]].
    + injection X as _ <- <-. apply FA, Nb.
    + subst l1. apply (inv_answers _ _ I k1 m o' b (k ++ (n, o, None) :: l2)); [rewrite EL, <- app_assoc; reflexivity|exact Nb].
    + subst k1. rewrite <- app_assoc in E. cbn [app] in E. apply app_inv_head in E. injection E as E.
      pose proof (inv_answers _ _ I (l1 ++ (n, o, None) :: k) m o' b k2) as Q. rewrite EL, <- app_assoc in Q. cbn [app] in Q. rewrite E in Q. specialize (Q eq_refl Nb).
      etransitivity; [|exact Q]. rewrite !serial_at_app. cbn [fser]. destruct (str_eqb_spec (op_file o) (op_file o')) as [X|X]; [|rewrite !andb_false_r; reflexivity].
      exfalso. apply (A2 (m, o', Some b)); [rewrite E; apply in_app_iff; right; left; reflexivity|cbn; congruence].
  - intros fn Hf. rewrite dget_dset in Hf. destruct (str_eqb_spec fn (op_file o)) as [EE|N]; [rewrite EE; symmetry; exact S2|]. rewrite So by exact N. apply (inv_free _ _ I fn Hf).
  - intros m u Hu. rewrite nth_upd in Hu. destruct (Nat.eqb_spec n m) as [->|N].
    + rewrite Hn in Hu. injection Hu as <-. exact Logic.I.
    + apply (content_ext (serial_at d0 (sh_log s))); [|apply (inv_file _ _ I _ _ Hu)]. intros o' Cu. symmetry. apply So.
      destruct (inv_crit _ _ I _ _ _ Hu Cu) as (_ & H' & _). intros X. rewrite X, Hh in H'. congruence.
Qed.
Lemma own_set o d f f' : dget (op_file o) d = Some f -> (forall q a, fget q f = Some a -> exists b, fget q f' = Some b) -> own_change (Some o) d (dset (op_file o) f' d).
Proof.
  intros Hf M. split.
  - intros fn N. apply dget_dset_other. apply N. reflexivity.
  - intros fn g Hg. rewrite dget_dset. destruct (str_eqb_spec fn (op_file o)) as [->|N]; [|exists g; split; [exact Hg|eauto]].
    rewrite Hf in Hg. injection Hg as <-. exists f'. split; [reflexivity|exact M].
Qed.
Lemma tl_in {A} (x : A) l : In x (tl l) -> In x l.
Proof. destruct l; cbn; auto. Qed.
Lemma micro_rest g m rest f rest' f' x : micro_step g m rest f = (Ok rest', f') -> In x rest' -> In x rest.
Proof.
  unfold micro_step. cbv zeta. destruct (str_eqb g []); [discriminate|].
  destruct m as [| | |w| | |w]; try (intros E; injection E as <- <-; auto; fail);
    (destruct (fget (norm g) f) as [[v b]|] eqn:G; [|discriminate]); try destruct v; try destruct b; intros E; try discriminate E; injection E as <- <-; auto using tl_in.
Qed.
Lemma micro_between o m rest f r f' F : micro_step (op_group o) m rest f = (r, f') -> (forall x, In (MSetValue x) (m :: rest) -> value_left o = Some x) ->
  between o F (Some f) -> between o F (Some f').
Proof.
  intros E Hx B q. unfold micro_step in E. cbv zeta in E. destruct (str_eqb (op_group o) []); [injection E as <- <-; apply B|].
  destruct m as [| | |w| | |w]; try (injection E as <- <-; unfold between in B; specialize (B q); cbn [vat] in *; rewrite attrs_at_require; exact B);
    (destruct (fget (norm (op_group o)) f) as [[v b]|] eqn:G; [|injection E as <- <-; apply B]);
    (assert (GA : attrs_at f (norm (op_group o)) = mkAttrs v b) by (unfold attrs_at; rewrite G; reflexivity));
    try destruct v as [v|]; try destruct b as [b|]; injection E as <- <-; try (apply B; fail);
    specialize (B q); cbn [vat] in *; rewrite ?attrs_at_fset; (destruct (gpath_eqb_spec q (norm (op_group o))) as [->|N]; [|exact B]); cbn [at_value];
    try (right; split; [reflexivity|left; reflexivity]); try (right; split; [reflexivity|right; symmetry; apply Hx; left; reflexivity]); rewrite GA in B; exact B.
Qed.
Lemma body_sets o x : In (MSetValue x) (body o) -> value_left o = Some x.
Proof.
  destruct o as [fn g v b|fn g|fn g]; cbn [body value_left]; [|cbn; intuition discriminate|intros []].
  unfold write_value_code, write_block_code. destruct v, b; cbn [app In]; intuition congruence.
Qed.
Lemma vat_new q : vat (Some new_file) q = None.
Proof. unfold vat, attrs_at. cbn [fget new_file]. destruct (gpath_eqb q []); reflexivity. Qed.
Lemma inv_step d0 s n s' : Inv d0 s -> step n s s' -> Inv d0 s'.
Proof.
  intros I H. destruct H as [t o l Hn R T W Hh|t o l m Hn R T W Hh|t o Hn R K|t o Hn R K|t o m rest f r f' Hn R Hf M|t o Hn R|t o a Hn R|t o a Hn R|t o l f Hn R T W O|t o l Hn R T W O|t o f Hn R O|t o f a Hn R O G];
    try (pose proof (inv_file _ _ I _ _ Hn) as HF; rewrite R in HF; cbn [content] in HF).
  - exact (inv_acquire d0 s n t o l I Hn R W Hh).
  - apply (inv_local0 d0 s n t); [exact I|exact Hn|rewrite R; reflexivity|exact Logic.I].
  - destruct (inv_crit _ _ I n t o Hn ltac:(rewrite R; reflexivity)) as (W & _). apply (inv_local d0 s n t); [exact I|exact Hn|rewrite R; reflexivity| |].
    + rewrite R. cbn [crit]. unfold open_a. destruct (dget (op_file o) (sh_disk s)) as [f|] eqn:E.
      * apply (own_set o _ f); [exact E|eauto].
      * split; [intros fn N; apply dget_dset_other, N; reflexivity|]. intros fn f Hf. rewrite dget_dset. destruct (str_eqb_spec fn (op_file o)) as [->|N]; [congruence|].
        exists f. split; [exact Hf|eauto].
    + cbn [goto th_pc content]. rewrite dget_dset_same. unfold open_a. destruct (body_runs o (dget (op_file o) (sh_disk s)) W K) as (a & f' & E & Rn & Na).
      rewrite HF in E. eexists _, a, f'. split; [reflexivity|]. split; [exact Rn|]. split; [exact E|]. split; [exact Na|]. split; [exact K|]. split; [|apply body_sets].
      rewrite <- HF. intros q. left. destruct (dget (op_file o) (sh_disk s)); [reflexivity|apply vat_new].
  - apply (inv_local0 d0 s n t); [exact I|exact Hn|rewrite R; reflexivity|]. cbn [goto th_pc content]. left. split; [reflexivity|exact HF].
  - destruct HF as (f0 & a & f1 & E0 & Rn & Ef & Na & K & B & Hx). rewrite Hf in E0. injection E0 as <-.
    apply (inv_local d0 s n t); [exact I|exact Hn|rewrite R; destruct r; reflexivity| |].
    + rewrite R. cbn [crit]. apply (own_set o _ f); [exact Hf|]. intros q b. apply (step_has _ _ _ _ _ _ _ _ M).
    + pose proof (micro_between o m rest f r f' _ M Hx B) as B'. inversion Rn as [|m' rest0 f2 rest' f3 a' f4 M' Rn'|m' rest0 f2 e f3 M']; subst; rewrite M in M'; injection M' as -> ->.
      * cbn [goto th_pc content]. rewrite dget_dset_same. exists f3, a, f1. repeat (split; [solve [reflexivity|assumption]|]). intros x Hin. apply Hx. right. exact (micro_rest _ _ _ _ _ _ _ M Hin).
      * cbn [goto th_pc content]. rewrite dget_dset_same. repeat (split; [assumption|]). exact B'.
  - destruct HF as (f & a & f' & E & Rn & Ef & Na & K & B & Hx). inversion Rn; subst. apply (inv_local0 d0 s n t); [exact I|exact Hn|rewrite R; reflexivity|].
    cbn [goto th_pc content]. rewrite E. repeat (split; [assumption|]). exact B.
  - apply (inv_local0 d0 s n t); [exact I|exact Hn|rewrite R; reflexivity|]. cbn [goto th_pc content]. right. exact HF.
  - exact (inv_release d0 s n t o a I Hn R).
  - apply (inv_local0 d0 s n t); [exact I|exact Hn|rewrite R; reflexivity|]. cbn [next th_pc content]. split; [exact W|eauto].
  - apply (inv_local0 d0 s n t); [exact I|exact Hn|rewrite R; reflexivity|exact Logic.I].
  - destruct HF as [W _]. destruct (str_eqb (op_group o) []); [|destruct (fget (norm (op_group o)) f) as [a|] eqn:G]; (apply (inv_local0 d0 s n t); [exact I|exact Hn|rewrite R; reflexivity|]); cbn [goto finish th_pc content]; try exact Logic.I.
    split; [exact W|eauto].
  - apply (inv_local0 d0 s n t); [exact I|exact Hn|rewrite R; reflexivity|exact Logic.I].
Qed.
Lemma inv_steps d0 s s' : Inv d0 s -> steps s s' -> Inv d0 s'.
Proof. intros I H. induction H as [s|s n s' s'' H IH Hs]; [exact I|]. exact (inv_step _ _ _ _ (IH I) Hs). Qed.
Lemma inv_reach d0 ps s : steps (start d0 ps) s -> Inv d0 s.
Proof. apply inv_steps, inv_start. Qed.

(** ** Every thread does its operations in order, and is told what happened *)
Definition mine (n : nat) (log : list entry) : list entry := filter (fun e => Nat.eqb (fst (fst e)) n) log.
Lemma mine_app n l1 l2 : mine n (l1 ++ l2) = mine n l1 ++ mine n l2.
Proof. apply filter_app. Qed.
Lemma mine_answer_other n m a l : n <> m -> mine m (answer_log n a l) = mine m l.
Proof.
  intros N. induction l as [|[[k o] [b|]] l IH]; cbn [answer_log]; [reflexivity| |].
  - unfold mine in *. cbn [filter fst]. rewrite IH. reflexivity.
  - destruct (Nat.eqb_spec k n) as [->|K]; unfold mine in *; cbn [filter fst].
    + destruct (Nat.eqb_spec n m); [contradiction|reflexivity].
    + rewrite IH. reflexivity.
Qed.
Lemma mine_answer_same n a l : mine n (answer_log n a l) = answer_log n a (mine n l).
Proof.
  induction l as [|[[k o] [b|]] l IH]; cbn [answer_log]; [reflexivity| |]; unfold mine in *; cbn [filter fst].
  - rewrite IH. destruct (Nat.eqb k n); reflexivity.
  - destruct (Nat.eqb_spec k n) as [->|K]; cbn [filter fst answer_log]; [rewrite Nat.eqb_refl; reflexivity|].
    destruct (Nat.eqb_spec k n); [contradiction|]. exact IH.
Qed.
Lemma logged_mine n l : logged n l = logged n (mine n l).
Proof.
  induction l as [|[[k o] a] l IH]; [reflexivity|]. unfold mine. cbn [filter fst]. unfold logged at 1. cbn [flat_map]. fold (logged n l). rewrite IH.
  destruct (Nat.eqb_spec k n) as [->|K]; cbn [flat_map andb].
  - unfold logged. cbn [flat_map]. rewrite Nat.eqb_refl. reflexivity.
  - destruct a; reflexivity.
Qed.
Lemma logged_app n l1 l2 : logged n (l1 ++ l2) = logged n l1 ++ logged n l2.
Proof. apply flat_map_app. Qed.
Definition doing (p : pc) : list op := match running p with Some o => [o] | None => [] end.
Definition pend (n : nat) (p : pc) : list entry := match crit p with Some o => [(n, o, None)] | None => [] end.
Definition Inv2 (ps : list (list op)) (s : shared) : Prop :=
  List.length (sh_threads s) = List.length ps /\
  forall n t p, nth_error (sh_threads s) n = Some t -> nth_error ps n = Some p ->
    p = map fst (rev (th_done t)) ++ doing (th_pc t) ++ th_todo t /\
    exists fin, mine n (sh_log s) = fin ++ pend n (th_pc t) /\ (forall e, In e fin -> e_ans e <> None) /\ logged n fin = told t.
Lemma inv2_start d0 ps : Inv2 ps (start d0 ps).
Proof.
  split; [cbn; apply map_length|]. intros n t p H E. cbn [start sh_threads] in H. rewrite nth_error_map, E in H. injection H as <-. split; [reflexivity|].
  exists []. repeat split. intros e [].
Qed.
Lemma inv2_upd ps s n t t' s' : Inv2 ps s -> nth_error (sh_threads s) n = Some t -> sh_threads s' = upd_nth n t' (sh_threads s) ->
  (forall m, m <> n -> mine m (sh_log s') = mine m (sh_log s)) ->
  (forall p fin, p = map fst (rev (th_done t)) ++ doing (th_pc t) ++ th_todo t -> mine n (sh_log s) = fin ++ pend n (th_pc t) -> (forall e, In e fin -> e_ans e <> None) -> logged n fin = told t ->
    p = map fst (rev (th_done t')) ++ doing (th_pc t') ++ th_todo t' /\
    exists fin', mine n (sh_log s') = fin' ++ pend n (th_pc t') /\ (forall e, In e fin' -> e_ans e <> None) /\ logged n fin' = told t') -> Inv2 ps s'.
Proof.
  intros [HL H] Hn ET Hm H'. split; [rewrite ET, upd_length; exact HL|]. intros m u p Hu Hp. rewrite ET, nth_upd in Hu. destruct (Nat.eqb_spec n m) as [<-|N].
  - rewrite Hn in Hu. injection Hu as <-. destruct (H n t p Hn Hp) as (E & fin & E1 & E2 & E3). apply (H' p fin E E1 E2 E3).
  - rewrite Hm by congruence. apply (H m u p Hu Hp).
Qed.
Lemma told_skip t o a : (writes o && match a with Err EOS => false | _ => true end)%bool = false -> told (finish t o a) = told t.
Proof. intros H. unfold told, finish. cbn [th_done rev]. rewrite filter_app. cbn [filter fst snd]. rewrite H. apply app_nil_r. Qed.
Lemma told_add t o a : (writes o && match a with Err EOS => false | _ => true end)%bool = true -> told (finish t o a) = told t ++ [(o, a)].
Proof. intros H. unfold told, finish. cbn [th_done rev]. rewrite filter_app. cbn [filter fst snd]. rewrite H. reflexivity. Qed.
Lemma inv2_step d0 ps s n s' : Inv d0 s -> Inv2 ps s -> step n s s' -> Inv2 ps s'.
Proof.
  intros I I2 H. destruct H as [t o l Hn R T W Hh|t o l m Hn R T W Hh|t o Hn R K|t o Hn R K|t o m rest f r f' Hn R Hf M|t o Hn R|t o a Hn R|t o a Hn R|t o l f Hn R T W O|t o l Hn R T W O|t o f Hn R O|t o f a Hn R O G];
    match goal with
    | |- Inv2 _ (set_shlog _ _) => idtac
    | |- Inv2 _ (set_disk_of _ (set_thread _ ?t' _)) => apply (inv2_upd ps s n t t'); [exact I2|exact Hn|reflexivity|reflexivity|]
    | |- Inv2 _ (set_thread _ ?t' _) => apply (inv2_upd ps s n t t'); [exact I2|exact Hn|reflexivity|reflexivity|]
    end; try (intros p fin; rewrite R; intros Ep E1 E2 E3; cbn [set_disk_of set_thread sh_log]).
  - apply (inv2_upd ps s n t (next t l (Locked o))); [exact I2|exact Hn|reflexivity| |].
    + intros m N. cbn [set_shlog sh_log]. rewrite mine_app. unfold mine at 2. cbn [filter fst]. destruct (Nat.eqb_spec n m); [congruence|apply app_nil_r].
    + intros p fin. rewrite R. intros Ep E1 E2 E3. cbn [next th_pc th_done th_todo]. split; [rewrite Ep, T; reflexivity|].
      exists fin. cbn [set_shlog sh_log]. rewrite mine_app, E1. unfold mine. cbn [filter fst]. rewrite Nat.eqb_refl. cbn [pend crit]. rewrite app_nil_r. auto.
  - cbn [finish next th_pc th_done th_todo rev map]. rewrite map_app. split; [rewrite Ep, T, <- app_assoc; reflexivity|]. exists fin. split; [exact E1|]. split; [exact E2|].
    rewrite E3. symmetry. exact (told_skip (next t l Ready) o (Err EOS) ltac:(cbn; apply andb_false_r)).
  - cbn [goto th_pc th_done th_todo]. split; [exact Ep|]. exists fin. auto.
  - cbn [goto th_pc th_done th_todo]. split; [exact Ep|]. exists fin. auto.
  - cbn [goto th_pc th_done th_todo]. split; [destruct r; exact Ep|]. exists fin. split; [destruct r; exact E1|auto].
  - cbn [goto th_pc th_done th_todo]. split; [exact Ep|]. exists fin. auto.
  - cbn [goto th_pc th_done th_todo]. split; [exact Ep|]. exists fin. auto.
  - destruct (inv_crit _ _ I n t o Hn ltac:(rewrite R; reflexivity)) as (W & _).
    apply (inv2_upd ps s n t (finish t o (mapr (fun _ => None) a))); [exact I2|exact Hn|reflexivity| |].
    + intros m N. cbn [set_shlog sh_log]. apply mine_answer_other. congruence.
    + intros p fin. rewrite R. intros Ep E1 E2 E3. cbn [finish th_pc th_done th_todo rev map]. rewrite map_app. split; [rewrite Ep, <- app_assoc; reflexivity|].
      cbn [set_shlog sh_log pend crit doing running] in *. rewrite mine_answer_same, E1, answer_log_spec by (intros o' X; exact (E2 _ X eq_refl)).
      exists (fin ++ [(n, o, Some a)]). rewrite app_nil_r. split; [reflexivity|]. split; [intros e He; apply in_app_iff in He; destruct He as [He|[<-|[]]]; [exact (E2 e He)|cbn; discriminate]|].
      rewrite logged_app, E3. unfold logged. cbn [flat_map]. rewrite Nat.eqb_refl, app_nil_r. cbn [andb].
      destruct a as [[]|e]; [|destruct e]; cbn [took_effect mapr]; try (symmetry; apply told_add; rewrite W; reflexivity). rewrite app_nil_r. symmetry. apply told_skip. apply andb_false_r.
  - cbn [next th_pc th_done th_todo]. split; [rewrite Ep, T; reflexivity|]. exists fin. auto.
  - cbn [finish next th_pc th_done th_todo rev map]. rewrite map_app. split; [rewrite Ep, T, <- app_assoc; reflexivity|]. exists fin. split; [exact E1|]. split; [exact E2|].
    rewrite E3. symmetry. exact (told_skip (next t l Ready) o (Ok None) ltac:(rewrite W; reflexivity)).
  - pose proof (inv_file _ _ I _ _ Hn) as HF. rewrite R in HF. destruct HF as [W _].
    destruct (str_eqb (op_group o) []); [|destruct (fget (norm (op_group o)) f) as [a|] eqn:G].
    + cbn [finish th_pc th_done th_todo rev map]. rewrite map_app. split; [rewrite Ep, <- app_assoc; reflexivity|]. exists fin. split; [exact E1|]. split; [exact E2|].
      rewrite E3. symmetry. apply told_skip. rewrite W. reflexivity.
    + cbn [goto th_pc th_done th_todo]. split; [exact Ep|]. exists fin. auto.
    + cbn [finish th_pc th_done th_todo rev map]. rewrite map_app. split; [rewrite Ep, <- app_assoc; reflexivity|]. exists fin. split; [exact E1|]. split; [exact E2|].
      rewrite E3. symmetry. apply told_skip. rewrite W. reflexivity.
  - pose proof (inv_file _ _ I _ _ Hn) as HF. rewrite R in HF. destruct HF as [W _].
    cbn [finish th_pc th_done th_todo rev map]. rewrite map_app. split; [rewrite Ep, <- app_assoc; reflexivity|]. exists fin. split; [exact E1|]. split; [exact E2|].
    rewrite E3. symmetry. apply told_skip. rewrite W. reflexivity.
Qed.
Lemma inv2_reach d0 ps s : steps (start d0 ps) s -> Inv2 ps s.
Proof.
  assert (H : forall s0 s, steps s0 s -> Inv d0 s0 -> Inv2 ps s0 -> Inv2 ps s); [|intros X; exact (H _ _ X (inv_start d0 ps) (inv2_start d0 ps))].
  intros s0 s1 X I I2. induction X as [s0|s0 n s1 s2 X IH Hs]; [exact I2|]. exact (inv2_step d0 ps s1 n s2 (inv_steps _ _ _ I X) (IH I I2) Hs).
Qed.

(** ** Every schedule ends *)
Definition todo_size (t : thread) : nat :=
  match th_pc t with
  | Ready => 0 | Locked _ => 12 | Inside _ rest => 3 + List.length rest | Leaving _ _ => 2 | Closed _ _ => 1 | Reading _ => 2 | Found _ => 1
  end + 13 * List.length (th_todo t).
Definition size (s : shared) : nat := fold_right (fun t n => todo_size t + n) 0 (sh_threads s).
Lemma fold_upd n (t t' : thread) l : nth_error l n = Some t -> todo_size t' < todo_size t ->
  fold_right (fun t n => todo_size t + n) 0 (upd_nth n t' l) < fold_right (fun t n => todo_size t + n) 0 l.
Proof.
  revert n. induction l as [|x l IH]; intros [|n] E H; cbn [nth_error upd_nth fold_right] in *; try discriminate E.
  - injection E as ->. lia.
  - specialize (IH n E H). lia.
Qed.
Lemma body_length o : List.length (body o) <= 8.
Proof. destruct o as [fn g [v|] [b|]|fn g|fn g]; cbn; lia. Qed.
Lemma micro_length g m rest f rest' f' : micro_step g m rest f = (Ok rest', f') -> List.length rest' <= List.length rest.
Proof.
  unfold micro_step. cbv zeta. destruct (str_eqb g []); [discriminate|].
  destruct m as [| | |w| | |w]; try (intros E; injection E as <- <-; lia);
    (destruct (fget (norm g) f) as [[v b]|] eqn:G; [|discriminate]); try destruct v; try destruct b; intros E; try discriminate E; injection E as <- <-; try lia; destruct rest; cbn; lia.
Qed.
Lemma size_step n s s' : step n s s' -> size s' < size s.
Proof.
  intros H. unfold size. destruct H as [t o l Hn R T W Hh|t o l m Hn R T W Hh|t o Hn R K|t o Hn R K|t o m rest f r f' Hn R Hf M|t o Hn R|t o a Hn R|t o a Hn R|t o l f Hn R T W O|t o l Hn R T W O|t o f Hn R O|t o f a Hn R O G];
    cbn [set_shlog set_lock set_disk_of set_thread sh_threads]; apply (fold_upd n t); try exact Hn; unfold todo_size; cbn [next goto finish th_pc th_todo]; rewrite ?R, ?T; cbn [List.length]; try lia.
  - pose proof (body_length o). lia.
  - destruct r as [rest'|e]; [pose proof (micro_length _ _ _ _ _ _ M)|]; lia.
  - destruct (str_eqb (op_group o) []); [|destruct (fget (norm (op_group o)) f)]; cbn [goto finish th_pc th_todo]; lia.
Qed.
Lemma size_steps k s s' : steps_n k s s' -> k + size s' <= size s.
Proof. intros H. induction H as [s|k s n s' s'' H IH Hs]; [lia|]. pose proof (size_step _ _ _ Hs). lia. Qed.
(** a thread that is not over and waits for no lock can go on *)
Lemma can_step d0 s n t : Inv d0 s -> nth_error (sh_threads s) n = Some t -> ~ over t -> ~ waiting s t -> exists s', step n s s'.
Proof.
  intros I Hn HO HW. pose proof (inv_file _ _ I _ _ Hn) as HF. destruct (th_pc t) as [|o|o rest|o a|o a|o|o] eqn:R; cbn [content] in HF.
  - destruct (th_todo t) as [|o l] eqn:T; [exfalso; apply HO; split; assumption|]. destruct (writes o) eqn:W.
    + destruct (holder (op_file o) s) as [m|] eqn:Hh; [exfalso; apply HW; exists o, l; repeat split; try assumption; congruence|]. eexists. eapply StAcquire; eassumption.
    + destruct (open_r (sh_disk s) (op_file o)) as [f|] eqn:O; eexists; [eapply StReadOpen|eapply StReadMissing]; eassumption.
  - destruct (name_ok (op_file o)) eqn:K; eexists; [eapply StOpen|eapply StNoOpen]; try eassumption. left. exact K.
  - destruct rest as [|m rest]; [eexists; eapply StEnd; eassumption|]. destruct HF as (f & a & f' & Hf & _). destruct (micro_step (op_group o) m rest f) as [r f1] eqn:M.
    eexists. eapply StCall; eassumption.
  - eexists. eapply StClose; eassumption.
  - eexists. eapply StRelease; eassumption.
  - destruct HF as (_ & f & O). eexists. eapply StReadGroup; eassumption.
  - destruct HF as (_ & f & a & O & G). eexists. eapply StReadAttr; eassumption.
Qed.
