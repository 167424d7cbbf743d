(** * C115: it does not matter when pending writes are saved *)
From Verif Require Import Model.Base Model.State Model.Value Model.Encoder Model.Hdf5 Model.Runtime Model.Driver.
From Verif Require Import Spec.EncSpec Spec.DriverSpec Spec.BatchSpec.
From Verif Require Import Proofs.BaseFacts Proofs.EncFacts Proofs.DiskFacts Proofs.DriverFacts Proofs.ReachFacts Proofs.SimFacts Proofs.BatchFacts.
From Verif Require Import Properties.DriverProps.

(** Reads and writes on keys at different places, of storable values other than None: with commit(),
    hard_apply() and cache expiry anywhere in between, every step answers the same as in the run
    that saves nothing, every key reads the same afterwards, the meters stand the same, and after a
    final commit() the files read the same. *)
Theorem C115_commit_points_partial U l d rt r w' :
  separate U -> (forall k, U k -> key_ok k) -> Forall (step_in U) l ->
  saved_anywhere l (mkW (driver0 false d) rt) r w' ->
  let r0 := fst (never_saved l (mkW (driver0 false d) rt)) in
  let w0 := snd (never_saved l (mkW (driver0 false d) rt)) in
  Forall2 same_answer r0 r /\
  (forall k, U k -> same_answer (fst (get k (w_drv w0))) (fst (get k (w_drv w')))) /\
  w_rt w0 = w_rt w' /\
  (forall v1 v2 k, commit (w_drv w0) = (Ok tt, v1) -> commit (w_drv w') = (Ok tt, v2) -> U k -> fresh_read (dv_disk v1) k = fresh_read (dv_disk v2) k).
Proof.
  intros HU HK HF HS. cbv zeta.
  destruct (run_agree U HU HK _ _ _ _ HS HF (mkW (driver0 false d) rt) (agree_start U d rt) eq_refl) as (R1 & R2 & R3).
  split; [exact R1|]. split; [|split; [exact R3|]].
  - intros k Hk. rewrite !get_fst. apply (agree_find U _ _ _ R2 Hk).
  - intros v1 v2 k H1 H2 Hk. exact (agree_committed U HU HK rt _ _ _ _ _ R2 Hk H1 H2).
Qed.
(** ... and saving never fails there, if the files can be created. *)
Theorem C115_saving_succeeds_partial U l d rt r w' n :
  separate U -> (forall k, U k -> key_writable k) -> Forall (step_in U) l ->
  saved_anywhere l (mkW (driver0 false d) rt) r w' ->
  (exists v, commit (w_drv w') = (Ok tt, v)) /\ (exists v, hard_apply n (w_drv w') = (Ok tt, v)).
Proof.
  intros HU HK HF HS.
  destruct (run_agree U HU (fun k Hk => proj1 (HK k Hk)) _ _ _ _ HS HF (mkW (driver0 false d) rt) (agree_start U d rt) eq_refl) as (_ & R2 & _).
  pose proof (ag_all _ _ _ R2) as HA. pose proof (ag_shape _ _ _ R2) as (S1 & _ & S3 & _).
  assert (HW : Forall (fun kv => key_writable (fst kv) /\ forall e, encode (snd kv) <> Err e) (dv_writes (w_drv w'))).
  { apply Forall_forall. intros kv Hi. unfold all_pending in HA. rewrite Forall_forall in HA. destruct (HA _ Hi) as (H1 & H2 & _). split; [apply HK, H1|].
    destruct (encode_decode _ H2) as (t & y & E & _). intros e. rewrite E. discriminate. }
  split.
  - apply C03_commit_succeeds. intros k x Hi. rewrite Forall_forall in HW. destruct (HW _ Hi) as [H1 H2]. split; [exact H1|]. cbn [snd] in H2.
    destruct (encode x) as [t|e]; [eauto|exfalso; apply (H2 e); reflexivity].
  - rewrite hard_apply_eq by assumption. cbv zeta. destruct (apply_all_ok n (dv_reads (w_drv w')) _ (dv_disk (w_drv w')) HW) as (d' & E). rewrite E. eexists. reflexivity.
Qed.

(** Missing: values that are not storable, deletes, and keys that share a place.  Each of these tells
    the runs apart. *)
Lemma commit_between o1 o2 w v : commit (w_drv (snd (perform o1 w))) = (Ok tt, v) ->
  saved_anywhere [o1; o2] w [fst (perform o1 w); fst (perform o2 (mkW v (w_rt (snd (perform o1 w)))))] (snd (perform o2 (mkW v (w_rt (snd (perform o1 w)))))).
Proof. intros H. apply sa_step. eapply sa_save; [apply sv_commit, H|]. apply sa_step, sa_done. Qed.
Definition answers_with_commit (o1 o2 : step) : list (result pyval) :=
  [fst (perform o1 w0); fst (perform o2 (mkW (snd (commit (w_drv (snd (perform o1 w0))))) (w_rt (snd (perform o1 w0)))))].
Lemma differ o1 o2 a b c : fst (commit (w_drv (snd (perform o1 w0)))) = Ok tt ->
  fst (never_saved [o1; o2] w0) = [a; Ok b] -> answers_with_commit o1 o2 = [a; Ok c] ->
  exists r w', saved_anywhere [o1; o2] w0 r w' /\ fst (never_saved [o1; o2] w0) = [a; Ok b] /\ r = [a; Ok c].
Proof.
  intros H1 H2 H3. eexists; eexists. split; [|split; [exact H2|exact H3]]. apply commit_between.
  destruct (commit (w_drv (snd (perform o1 w0)))) as [x v]. cbn [fst snd] in *. rewrite H1. reflexivity.
Qed.
Theorem C115_delete_refuted : exists l w r w', saved_anywhere l w r w' /\
  l = [SWrite kA VNone false; SRead kA] /\ fst (never_saved l w) = [Ok VNone; Ok (VInt 1)] /\ r = [Ok VNone; Ok VNone].
Proof.
  exists [SWrite kA VNone false; SRead kA], w0.
  destruct (differ (SWrite kA VNone false) (SRead kA) (Ok VNone) (VInt 1) VNone) as (r & w' & H1 & H2 & H3); [vm_compute; reflexivity..|]. exists r, w'. auto.
Qed.
Theorem C115_tuple_refuted : exists l w r w', saved_anywhere l w r w' /\
  l = [SWrite kA (VTuple [VInt 1]) false; SRead kA] /\ fst (never_saved l w) = [Ok VNone; Ok (VTuple [VInt 1])] /\ r = [Ok VNone; Ok (VList [VInt 1])].
Proof.
  exists [SWrite kA (VTuple [VInt 1]) false; SRead kA], w0.
  destruct (differ (SWrite kA (VTuple [VInt 1]) false) (SRead kA) (Ok VNone) (VTuple [VInt 1]) (VList [VInt 1])) as (r & w' & H1 & H2 & H3); [vm_compute; reflexivity..|]. exists r, w'. auto.
Qed.
Theorem C115_shared_place_refuted : exists l w r w', saved_anywhere l w r w' /\
  l = [SWrite (u "con_a.h:x:") (VInt 7) false; SRead (u "con_a.h:x")] /\ fst (never_saved l w) = [Ok VNone; Ok VNone] /\ r = [Ok VNone; Ok (VInt 7)].
Proof.
  exists [SWrite (u "con_a.h:x:") (VInt 7) false; SRead (u "con_a.h:x")], w0.
  destruct (differ (SWrite (u "con_a.h:x:") (VInt 7) false) (SRead (u "con_a.h:x")) (Ok VNone) VNone (VInt 7)) as (r & w' & H1 & H2 & H3); [vm_compute; reflexivity..|]. exists r, w'. auto.
Qed.
(** A case that meets the hypotheses: two keys, a commit and a hard_apply between the steps. *)
Example C115_example : exists r w',
  saved_anywhere [SWrite kA (VInt 5) true; SRead kA; SWrite kB (VStr (u "new")) true; SRead kB; SRead kA] w0 r w' /\
  r = [Ok VNone; Ok (VInt 5); Ok VNone; Ok (VStr (u "new")); Ok (VInt 5)] /\ dv_writes (w_drv w') = [] /\
  separate c12_keys /\ (forall k, c12_keys k -> key_writable k) /\
  Forall (step_in c12_keys) [SWrite kA (VInt 5) true; SRead kA; SWrite kB (VStr (u "new")) true; SRead kB; SRead kA].
Proof.
  pose (a1 := snd (perform (SWrite kA (VInt 5) true) w0)). pose (v1 := snd (commit (w_drv a1))). pose (a2 := snd (perform (SRead kA) (mkW v1 (w_rt a1)))).
  pose (a3 := snd (perform (SWrite kB (VStr (u "new")) true) a2)). pose (v3 := snd (hard_apply 3 (w_drv a3))). pose (a4 := snd (perform (SRead kB) (mkW v3 (w_rt a3)))).
  eexists. exists (snd (perform (SRead kA) a4)). split; [|split; [|split; [|split; [|split]]]].
  - apply sa_step. apply (sa_save _ a1 (mkW v1 (w_rt a1))); [apply sv_commit; vm_compute; reflexivity|].
    apply sa_step. fold a2. apply sa_step. fold a3. apply (sa_save _ a3 (mkW v3 (w_rt a3))); [apply (sv_hard 3); vm_compute; reflexivity|].
    apply sa_step. fold a4. apply sa_step. apply sa_done.
  - vm_compute. reflexivity.
  - vm_compute. reflexivity.
  - apply C12_example.
  - intros k [->| ->]; split; vm_compute; try reflexivity; discriminate.
  - assert (Hi : int_ok 5) by (apply int_ok_small; reflexivity).
    assert (HT : text_ok (u "new")) by (vm_compute; repeat split; try discriminate; intros [[X _] _]; apply X; reflexivity).
    assert (KA : c12_keys kA) by (left; reflexivity). assert (KB : c12_keys kB) by (right; reflexivity).
    assert (NI : forall z, VInt z <> VNone) by (intros z X; discriminate X). assert (NS : forall s, VStr s <> VNone) by (intros s X; discriminate X).
    repeat apply Forall_cons; try apply Forall_nil; cbn [step_in storable]; auto.
Qed.
