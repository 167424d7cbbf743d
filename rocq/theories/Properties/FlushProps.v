(** * C116: the flushes of a Driver *)
From Verif Require Import Model.Base Model.State Model.Value Model.Encoder Model.Hdf5 Model.Runtime Model.Driver.
From Verif Require Import Spec.DriverSpec Proofs.BaseFacts Proofs.DiskFacts Proofs.DriverFacts Proofs.ReachFacts Proofs.SimFacts.
From Verif Require Import Properties.DriverProps.

Lemma open_r_gone fn d : open_r (ddel fn d) fn = None.
Proof. unfold open_r. rewrite dget_ddel_same. destruct (name_ok fn); reflexivity. Qed.
Lemma open_r_other fn fn' d : fn' <> fn -> open_r (ddel fn d) fn' = open_r d fn'.
Proof. intros H. unfold open_r. rewrite dget_ddel_other by exact H. reflexivity. Qed.
Lemma gone_value d k : fresh_read (ddel (fst (parse_key k)) d) k = Ok VNone.
Proof.
  rewrite fresh_read_value. unfold value_from_disk, get_value_from_disk. destruct (parse_key k) as [fn g]. cbn [fst]. unfold get_value, get_attr. rewrite open_r_gone. reflexivity.
Qed.
Lemma gone_block d k : stored_block (ddel (fst (parse_key k)) d) k = Ok None.
Proof. unfold stored_block. destruct (parse_key k) as [fn g]. cbn [fst]. unfold get_block, get_attr. rewrite open_r_gone. reflexivity. Qed.
Lemma other_value d k fn : fst (parse_key k) <> fn -> value_from_disk k (ddel fn d) = value_from_disk k d /\ stored_block (ddel fn d) k = stored_block d k.
Proof.
  intros H. unfold value_from_disk, stored_block, get_value_from_disk. destruct (parse_key k) as [fn' g]. cbn [fst] in H. unfold get_value, get_block, get_attr.
  rewrite open_r_other by exact H. auto.
Qed.
Lemma In_ddel {A} k fn (d : dict A) : In k (dkeys (ddel fn d)) <-> In k (dkeys d) /\ k <> fn.
Proof.
  pose proof (dget_None k (ddel fn d)) as H1. pose proof (dget_None k d) as H2. rewrite dget_ddel in H1.
  destruct (str_eqb_spec k fn) as [->|N].
  - split; [intros H; exfalso; apply (proj1 H1 eq_refl), H|intros [_ H]; congruence].
  - destruct (dget k d) as [x|] eqn:E.
    + split; intros H; [split; [|exact N]|].
      * destruct (in_dec (list_eq_dec N.eq_dec) k (dkeys d)) as [I|I]; [exact I|]. apply H2 in I. discriminate.
      * destruct (in_dec (list_eq_dec N.eq_dec) k (dkeys (ddel fn d))) as [I|I]; [exact I|]. apply H1 in I. discriminate.
    + split; intros H; exfalso; [apply (proj1 H1 eq_refl), H|apply (proj1 H2 eq_refl), H].
Qed.

(** flush_file(name) removes the file of that name: nothing stored under it is left, everything under
    other names stays stored and reads as before, and what is pending stays pending. *)
Theorem C116_flush_file fn v :
  (forall k, fst (parse_key k) = fn -> fresh_read (dv_disk (flush_file fn v)) k = Ok VNone /\ stored_block (dv_disk (flush_file fn v)) k = Ok None) /\
  (forall k, fst (parse_key k) <> fn -> fst (get k (flush_file fn v)) = fst (get k v) /\
     fresh_read (dv_disk (flush_file fn v)) k = fresh_read (dv_disk v) k /\ stored_block (dv_disk (flush_file fn v)) k = stored_block (dv_disk v) k) /\
  (forall n, In n (dkeys (dv_disk (flush_file fn v))) <-> In n (dkeys (dv_disk v)) /\ n <> fn) /\
  dv_writes (flush_file fn v) = dv_writes v.
Proof.
  unfold flush_file. cbn [dv_disk dv_writes set_disk]. split; [|split; [|split]].
  - intros k <-. split; [apply gone_value|apply gone_block].
  - intros k H. destruct (other_value (dv_disk v) k fn H) as [H1 H2]. rewrite !get_fst, !fresh_read_value, H1, H2. repeat split.
    unfold find. cbn [dv_bypass dv_writes dv_cache dv_disk set_disk]. rewrite H1. reflexivity.
  - intros n. apply In_ddel.
  - reflexivity.
Qed.
(** So where nothing is pending or cached under that name, its keys read None. *)
Theorem C116_flushed_reads_none_partial k v : pget k (dv_writes v) = VNone -> pget k (dv_cache v) = VNone ->
  fst (get k (flush_file (fst (parse_key k)) v)) = Ok VNone.
Proof.
  intros H1 H2. rewrite get_fst. unfold find, flush_file. cbn [dv_bypass dv_writes dv_cache dv_disk set_disk]. rewrite H1, H2. cbn [is_none negb].
  rewrite <- fresh_read_value, gone_value. destruct (dv_bypass v); reflexivity.
Qed.
(** Missing: with a value pending, or cached by an earlier hard_apply, the key reads that value still,
    and the next commit() stores it again. *)
Theorem C116_flush_file_cached_refuted : exists v k x, dv_writes v = [] /\ fresh_read (dv_disk (flush_file (fst (parse_key k)) v)) k = Ok VNone /\
  fst (get k (flush_file (fst (parse_key k)) v)) = Ok x /\ x <> VNone.
Proof. exists (snd (hard_apply 7 (w_drv (snd (set kA (VInt 5) true w0))))), kA, (VInt 5). repeat (split; [vm_compute; reflexivity|]). discriminate. Qed.
Theorem C116_flush_file_pending_refuted : exists v k x v', fst (get k (flush_file (fst (parse_key k)) v)) = Ok x /\ x <> VNone /\
  commit (flush_file (fst (parse_key k)) v) = (Ok tt, v') /\ fresh_read (dv_disk v') k = Ok x.
Proof.
  exists (w_drv (snd (set kA (VInt 5) true w0))), kA, (VInt 5), (snd (commit (flush_file (fst (parse_key kA)) (w_drv (snd (set kA (VInt 5) true w0)))))).
  split; [vm_compute; reflexivity|]. split; [discriminate|]. split; vm_compute; reflexivity.
Qed.
(** flush_cache() forgets everything that is not stored: every key reads as it would in a new Driver,
    the files do not change, and a commit() after it changes nothing. *)
Theorem C116_flush_cache v :
  (forall k, fst (get k (flush_cache v)) = fresh_read (dv_disk v) k) /\ dv_disk (flush_cache v) = dv_disk v /\
  dv_deltas (flush_cache v) = [] /\ dv_txn (flush_cache v) = [] /\ dv_events (flush_cache v) = [] /\ dv_reads (flush_cache v) = [] /\
  exists v', commit (flush_cache v) = (Ok tt, v') /\ dv_disk v' = dv_disk v.
Proof.
  split; [|repeat (split; [reflexivity|]); eexists; split; reflexivity].
  intros k. rewrite get_fst, fresh_read_value. unfold find, flush_cache. cbn [dv_bypass dv_writes dv_cache dv_disk]. destruct (dv_bypass v); reflexivity.
Qed.
(** flush_full() leaves nothing at all. *)
Theorem C116_flush_full v :
  (forall k, fst (get k (flush_full v)) = Ok VNone) /\ dv_disk (flush_full v) = [] /\ dv_writes (flush_full v) = [] /\
  get_contract_files (flush_full v) = [].
Proof.
  split; [|repeat split].
  intros k. rewrite get_fst. unfold find, flush_full, flush_cache, flush_disk. cbn [dv_bypass dv_writes dv_cache dv_disk set_disk].
  rewrite <- fresh_read_value. rewrite <- (gone_value [] k). destruct (dv_bypass v); reflexivity.
Qed.
