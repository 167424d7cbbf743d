(** * C92: deleting a contract *)
From Verif Require Import Model.Base Model.State Model.Dec Model.Time Model.Value Model.Encoder Model.Hdf5 Model.Runtime Model.Driver Model.Orm.
From Verif Require Import Spec.DriverSpec Spec.OrmSpec Spec.DumpSpec Proofs.BaseFacts Proofs.DiskFacts Proofs.DriverFacts Proofs.OrmFacts Properties.ClientProps.
From Coq Require Import Lia.
Local Open Scope string_scope.
Local Open Scope list_scope.

(** what delete_contract lists starts with the name *)
Lemma items_prefix ord p v i v1 : set_order ord -> items ord p v = (Ok i, v1) -> forall k, In k (dkeys i) -> startswith k p = true.
Proof.
  intros HO EI k I. unfold items in EI. rewrite bind_eq in EI. cbn [gets] in EI. rewrite bind_eq in EI. unfold lift in EI. destruct (iter_from_disk p (dv_disk v)) as [db|] eqn:ED; [|discriminate].
  rewrite bind_eq in EI. destruct (mapm _ _ v) as [[ex|] v2] eqn:EM; [|discriminate]. injection EI as <- _.
  assert (HL : forall d, In k (dkeys (live p d)) -> startswith k p = true).
  { intros d H. unfold live, dkeys in H. apply in_map_iff in H as ((k0 & x) & <- & H). apply filter_In in H as [_ H]. apply andb_prop in H as [H _]. exact H. }
  apply dupdate_keys_iff in I as [I|I].
  - apply dupdate_keys_iff in I as [I|I]; [apply dupdate_keys_iff in I as [[]|I]|]; apply (HL _ I).
  - assert (J : In k db).
    { assert (K : forall l v0 ex v3, mapm (fun k => let! x := get k in ret (k, x)) l v0 = (Ok ex, v3) -> In k (dkeys ex) -> In k l).
      { clear. intros l. induction l as [|a l IH]; intros v0 ex v3 E I; cbn [mapm] in E; [injection E as <- <-; destruct I|]. rewrite bind_eq in E. rewrite bind_eq in E. destruct (get a v0) as [[x|] v4]; [|discriminate]. cbn [ret] in E. rewrite bind_eq in E.
        destruct (mapm _ l v4) as [[ex'|] v5] eqn:E2; [|discriminate]. injection E as <- <-. destruct I as [<-|I]; [left; reflexivity|right; exact (IH _ _ _ E2 I)]. }
      apply (K _ _ _ _ EM) in I. apply (proj1 (HO _ _)) in I. apply filter_In in I. apply I. }
    unfold iter_from_disk in ED. destruct (parse_key p) as [fn g]. destruct (is_file (dv_disk v) fn) as [b|]; [|discriminate]. cbn [bindr] in ED. injection ED as <-. destruct b; [|destruct J]. rewrite In_str_sort in J. apply filter_In in J. apply J.
Qed.
Lemma step_others k v v' : delete_step k v = (Ok tt, v') ->
  (forall j, j <> k -> pget j (dv_writes v') = pget j (dv_writes v) /\ pget j (dv_cache v') = pget j (dv_cache v)) /\
  (forall q, q <> place_of k -> at_value (dattrs (dv_disk v') q) = at_value (dattrs (dv_disk v) q)).
Proof.
  unfold delete_step. rewrite bind_eq. cbn [modify]. rewrite bind_eq. cbn [modify].
  set (v1 := if is_none (pget k (dv_cache v)) then _ else _). set (v2 := if is_none (pget k (dv_writes v1)) then _ else _). intros H.
  assert (H1 : (forall j, j <> k -> pget j (dv_writes v1) = pget j (dv_writes v) /\ pget j (dv_cache v1) = pget j (dv_cache v)) /\ dv_disk v1 = dv_disk v).
  { unfold v1. destruct (is_none (pget k (dv_cache v))); [split; auto|]. split; [|reflexivity]. intros j N. cbn [set_cache dv_writes dv_cache]. rewrite pget_ddel. apply str_eqb_neq in N. rewrite N. auto. }
  assert (H2 : (forall j, j <> k -> pget j (dv_writes v2) = pget j (dv_writes v1) /\ pget j (dv_cache v2) = pget j (dv_cache v1)) /\ dv_disk v2 = dv_disk v1).
  { unfold v2. destruct (is_none (pget k (dv_writes v1))); [split; auto|]. split; [|reflexivity]. intros j N. cbn [set_writes dv_writes dv_cache]. rewrite pget_ddel. apply str_eqb_neq in N. rewrite N. auto. }
  clearbody v1 v2. destruct H1 as [H1 D1], H2 as [H2 D2].
  assert (H3 : (dv_writes v' = dv_writes v2 /\ dv_cache v' = dv_cache v2) /\ forall q, q <> place_of k -> at_value (dattrs (dv_disk v') q) = at_value (dattrs (dv_disk v2) q)).
  { unfold delete_key_from_disk in H. unfold place_of. destruct (parse_key k) as [fn g]. destruct (Nat.ltb (List.length fn) 255); [|injection H as <-; auto].
    unfold on_disk in H. destruct (h5_delete fn g (dv_disk v2)) as [[[]|e] d'] eqn:ED; [|discriminate]. injection H as <-. split; [split; reflexivity|]. intros q N. cbn [set_disk dv_disk].
    destruct (h5_delete_inv _ _ _ _ _ ED) as [(_ & HN & HG)|(HX & HE)]; [|congruence]. destruct (h5_delete_ok fn g (dv_disk v2) HN HG) as (d2 & E2 & HQ). rewrite ED in E2. injection E2 as <-. rewrite HQ.
    destruct (place_eqb_spec q (fn, norm g)); [contradiction|reflexivity]. }
  destruct H3 as ([W C] & D). split.
  - intros j N. rewrite W, C. destruct (H2 j N) as [-> ->]. apply H1, N.
  - intros q N. rewrite (D q N), D2, D1. reflexivity.
Qed.
Lemma delete_others ord n v v' : set_order ord -> delete_contract ord n v = (Ok tt, v') ->
  (forall j, startswith j n = false -> pget j (dv_writes v') = pget j (dv_writes v) /\ pget j (dv_cache v') = pget j (dv_cache v)) /\
  (forall q, (forall j, startswith j n = true -> place_of j <> q) -> at_value (dattrs (dv_disk v') q) = at_value (dattrs (dv_disk v) q)).
Proof.
  intros HO. unfold delete_contract. rewrite bind_eq. unfold keys. rewrite bind_eq. pose proof (ro_items ord n v) as (x & HR).
  destruct (items ord n v) as [[i|e] v1] eqn:EI; cbn [snd] in HR; [|discriminate]. cbn [ret]. change (foreach _ (dkeys i)) with (foreach delete_step (dkeys i)).
  pose proof (items_prefix ord n v i v1 HO EI) as HP. clear EI. intros H.
  assert (K : (forall j, startswith j n = false -> pget j (dv_writes v') = pget j (dv_writes v1) /\ pget j (dv_cache v') = pget j (dv_cache v1)) /\
    (forall q, (forall j, startswith j n = true -> place_of j <> q) -> at_value (dattrs (dv_disk v') q) = at_value (dattrs (dv_disk v1) q))).
  { clear HR. revert v1 H. induction (dkeys i) as [|k l IH]; intros v1 H; cbn [foreach] in H; [injection H as <-; split; auto|]. rewrite bind_eq in H. destruct (delete_step k v1) as [[[]|e] v2] eqn:E; [|discriminate].
    apply step_others in E as [E1 E2]. destruct (IH (fun j I => HP j (or_intror I)) v2 H) as [I1 I2]. pose proof (HP k (or_introl eq_refl)) as SK. split.
    - intros j SJ. destruct (I1 j SJ) as [-> ->]. apply E1. congruence.
    - intros q Q. rewrite (I2 q Q). apply E2. intros ->. exact (Q k SK eq_refl). }
  subst v1. exact K.
Qed.
(** Everything of the contract that is pending or cached is gone, nothing stored elsewhere is changed, nothing appears.
    Missing: that what is on disk is gone too, and that other contracts whose names start with the name are spared (below). *)
Theorem C92_delete_partial ord n v v' : set_order ord -> delete_contract ord n v = (Ok tt, v') ->
  (forall k, startswith k n = true -> pget k (dv_writes v') = VNone /\ pget k (dv_cache v') = VNone) /\
  (forall k, startswith k n = false -> pget k (dv_writes v') = pget k (dv_writes v) /\ pget k (dv_cache v') = pget k (dv_cache v)) /\
  (forall k, key_ok k -> (forall j, startswith j n = true -> same_place j k = false) -> fresh_read (dv_disk v') k = fresh_read (dv_disk v) k) /\
  (forall k, key_ok k -> fresh_read (dv_disk v') k = Ok VNone \/ fresh_read (dv_disk v') k = fresh_read (dv_disk v) k).
Proof.
  intros HO E. destruct (delete_contract_spec ord n v v' HO E) as [(_ & _ & _ & L & _) S]. destruct (delete_others ord n v v' HO E) as [O1 O2]. split; [exact S|]. split; [exact O1|]. split.
  - intros k KO N. rewrite !fresh_read_attrs by exact KO. rewrite O2; [reflexivity|]. intros j SJ P. specialize (N j SJ). rewrite same_place_eqb, P in N. destruct (place_eqb_spec (place_of k) (place_of k)); congruence.
  - intros k KO. rewrite !fresh_read_attrs by exact KO. destruct (L (place_of k)) as [-> | ->]; [left|right]; reflexivity.
Qed.
(** A contract that is not committed yet is gone, however it is read. *)
Theorem C92_pending_partial ord n v v' k : set_order ord -> delete_contract ord n v = (Ok tt, v') -> dv_bypass v' = false -> key_ok k -> startswith k n = true -> fresh_read (dv_disk v) k = Ok VNone -> fst (get k v') = Ok VNone.
Proof.
  intros HO E B KO S F. destruct (C92_delete_partial ord n v v' HO E) as (A & _ & _ & D). destruct (A k S) as [A1 A2]. rewrite get_result. unfold find. rewrite B, A1, A2. cbn [is_none negb]. rewrite <- fresh_read_value.
  destruct (D k KO) as [->|D']; [reflexivity|]. rewrite D'. exact F.
Qed.
Definition ident_order (l : list pystr) : list pystr := l.
Lemma ident_set : set_order ident_order. Proof. intros l k. reflexivity. Qed.
(** two contracts, pending: con_a and con_ab *)
Definition two : driver := set_writes [(u "con_a.__code__", VStr (u "pass")); (u "con_ab.__code__", VStr (u "1"))] (driver0 false []).
Definition deleted (n : string) (v : driver) : driver := snd (delete_contract ident_order (u n) v).
Example C92_pending_example : delete_contract ident_order (u "con_a") two = (Ok tt, deleted "con_a" two) /\ fst (get (u "con_a.__code__") two) = Ok (VStr (u "pass")) /\ fst (get (u "con_a.__code__") (deleted "con_a" two)) = Ok VNone.
Proof. repeat split; vm_compute; reflexivity. Qed.
(** con_ab is deleted with con_a *)
Theorem C92_prefix_refuted : exists v, delete_contract ident_order (u "con_a") v = (Ok tt, deleted "con_a" v) /\ fst (get_contract (u "con_ab") v) = Ok (VStr (u "1")) /\ fst (get_contract (u "con_ab") (deleted "con_a" v)) = Ok VNone.
Proof. exists two. repeat split; vm_compute; reflexivity. Qed.
(** after a commit nothing is deleted at all *)
Definition two_committed : driver := snd (commit two).
Theorem C92_refuted : exists v, delete_contract ident_order (u "con_a") v = (Ok tt, deleted "con_a" v) /\ fst (get_contract (u "con_a") v) = Ok (VStr (u "pass")) /\
  fst (get_contract (u "con_a") (deleted "con_a" v)) = Ok (VStr (u "pass")) /\ dv_disk (deleted "con_a" v) = dv_disk v.
Proof. exists two_committed. repeat split; vm_compute; reflexivity. Qed.
(** ...in general: a committed contract none of whose variables has a name starting with the contract's name *)
Theorem C92_committed_refuted ord n v v' : set_order ord -> dv_writes v = [] -> dv_cache v = [] -> iter_from_disk n (dv_disk v) = Ok [] -> delete_contract ord n v = (Ok tt, v') -> v' = v.
Proof.
  intros HO W C I E. unfold delete_contract, keys in E. rewrite bind_eq in E. rewrite bind_eq in E. unfold items in E. rewrite bind_eq in E. cbn [gets] in E. rewrite bind_eq in E. rewrite W, C, I in E. cbn [lift live filter dupdate fold_left] in E.
  destruct (ord []) as [|k l] eqn:EO; [injection E as <-; reflexivity|]. exfalso. apply (proj1 (HO [] k)). rewrite EO. left. reflexivity.
Qed.
Example C92_committed_example : dv_writes two_committed = [] /\ dv_cache two_committed = [] /\ iter_from_disk (u "con_a") (dv_disk two_committed) = Ok [].
Proof. repeat split; vm_compute; reflexivity. Qed.
(** a variable whose name starts with the contract's: deleting makes a file for a contract of the variable's name *)
Definition balance : driver := snd (commit (set_writes [(u "balance.balances", VInt 1)] (driver0 false []))).
Theorem C92_new_file_refuted : exists v, delete_contract ident_order (u "balance") v = (Ok tt, deleted "balance" v) /\ get_contract_files v = [u "balance"] /\ get_contract_files (deleted "balance" v) = [u "balance"; u "balances"] /\
  fst (get (u "balance.balances") (deleted "balance" v)) = Ok (VInt 1).
Proof. exists balance. repeat split; vm_compute; reflexivity. Qed.
