(** * C119: the owner of a contract *)
From Verif Require Import Model.Base Model.State Model.Dec Model.Time Model.Value Model.Encoder Model.Hdf5 Model.Runtime Model.Driver Model.Orm Model.Exec Model.Executor Model.OwnerOf.
From Verif Require Import Spec.EncSpec Spec.OrmSpec Spec.DriverSpec Spec.ExecSpec Spec.SubmitSpec.
From Verif Require Import Proofs.BaseFacts Proofs.ParseFacts Proofs.EncFacts Proofs.EncFacts2 Proofs.DriverFacts Proofs.DiskFacts Proofs.ReachFacts Proofs.OrmFacts Proofs.ExecFacts Proofs.ExecRel Proofs.MeterFacts Proofs.TxFacts Proofs.DrvRel Proofs.EncFacts3 Proofs.SubmitFacts Proofs.CommitFacts Proofs.CtxFacts.
From Verif Require Import Properties.DriverProps Properties.OrmProps Properties.Demo Properties.TxProps Properties.CtxProps Properties.ExecProps Properties.SubmitProps.
From Coq Require Import Lia.
Local Open Scope string_scope.
Local Open Scope list_scope.

Lemma owner_of_reads c s : fst (owner_of c s) = reads_as s (c ++ u ".__owner__").
Proof.
  unfold owner_of, on_w, on_drv, get_var, reads_as, s_drv. replace (make_key c OWNER_KEY []) with (c ++ u ".__owner__") by reflexivity.
  destruct (get (c ++ u ".__owner__") (w_drv (s_w s))) as [r v]. reflexivity.
Qed.
(** What owner_of answers decides who is let in right after: the contract [c], called from another one (or by the sender), lets its caller in if
    the answer is None or the empty text, or is the name of the caller, and otherwise raises; asking changes nothing *)
Theorem C119_who_is_let_in c s o : c_this (get_state (s_ctx s)) <> Some c -> fst (owner_of c s) = Ok o ->
  let s' := snd (owner_of c s) in let caller := c_this (get_state (s_ctx s)) in
  (forall k, reads_as s' k = reads_as s k) /\ dv_writes (s_drv s') = dv_writes (s_drv s) /\ dv_disk (s_drv s') = dv_disk (s_drv s) /\
  (lets_in o caller -> exists s2, enter c s' = (Ok tt, s2)) /\ (~ lets_in o caller -> exists s2, enter c s' = (Err EException, s2)).
Proof.
  intros HC HO. cbv zeta. rewrite owner_of_reads in HO.
  assert (HF : s_ctx (snd (owner_of c s)) = s_ctx s /\ (forall k, reads_as (snd (owner_of c s)) k = reads_as s k) /\ dv_writes (s_drv (snd (owner_of c s))) = dv_writes (s_drv s) /\ dv_disk (s_drv (snd (owner_of c s))) = dv_disk (s_drv s)).
  { unfold owner_of, on_w, on_drv, get_var. destruct (get (make_key c OWNER_KEY []) (w_drv (s_w s))) as [r v] eqn:E.
    destruct (ro_get (make_key c OWNER_KEY []) (w_drv (s_w s))) as (x & EX). rewrite E in EX. cbn [snd] in EX. subst v. cbn [snd].
    split; [reflexivity|]. split; [|split; reflexivity]. intros k. unfold reads_as. rewrite !get_result. exact (find_set_reads k x (s_drv s)). }
  destruct HF as (F1 & F2 & F3 & F4). split; [exact F2|]. split; [exact F3|]. split; [exact F4|].
  rewrite <- F1. apply C38_let_in; [rewrite F1; exact HC|]. fold (reads_as (snd (owner_of c s)) (c ++ u ".__owner__")). rewrite F2. exact HO.
Qed.

(** The owner given at submission is the owner for good.  Full statement: whatever happens after the submission, owner_of answers the same.
    Proved, as C61_history_partial is, for histories of any transactions and commits in which contract code writes the entries of [c] only by
    submissions, and for owners that are texts or None. *)
Theorem C119_owner_stays_partial L fuel g (ok : txn -> Prop) c text s s' o :
  set_order (l_ord L) -> (forall k, In k (fixed_entries c) -> key_ok k) ->
  all_code (code_leaves L (fixed_entries c)) L s -> (forall t, ok t -> metered g t = true -> ~ In (balance_key g t) (fixed_entries c)) ->
  clean (fixed_entries c) s -> reads_as s (c ++ u ".__code__") = Ok (VStr text) -> text_ok text ->
  tx_history L fuel g ok (fixed_entries c) s s' ->
  fst (owner_of c s) = Ok o -> o = VNone \/ (exists n, o = VStr n /\ text_ok n) ->
  fst (owner_of c s') = Ok o.
Proof.
  intros HO HU HA HF HC HT HTX HH. rewrite !owner_of_reads. intros E HV.
  destruct (C61_history_partial L fuel g ok c (fixed_entries c) text s s' HO (or_introl eq_refl) (fixed_are_entries c) HU HA HF HC HT HTX HH) as [_ H].
  destruct (H (c ++ u ".__owner__")) as [H1|(x & H1 & H2)]; [right; right; left; reflexivity|rewrite H1; exact E|].
  rewrite E in H1. injection H1 as <-. rewrite H2. destruct HV as [->|(n & -> & HN)]; [reflexivity|].
  destruct (stored_form_same (VStr n)) as (y & H3 & H4); [exact HN|]. rewrite <- (decode_new_value (VStr n)).
  - rewrite H3. inversion H4; reflexivity.
  - destruct (encode_decode (VStr n) HN) as (tx & w & Et & _). rewrite Et. discriminate.
Qed.
(** bob submits con_a with the owner bob; eve submits con_f, whose function assigns to Variable(contract='con_a', name='__owner__') *)
Definition owned_submit : txn :=
  mkTx (u "bob") SUBMISSION (u "submit_contract") [(u "name", VStr (u "con_a")); (u "code", VStr (u "good")); (u "owner", VStr (u "bob"))] [] false 1000 20 (Some false).
Definition seize_mods : lang := sub_lang [(u "good", plain_mod "con_a"); (u "seize", only_f (u "con_f") (put "con_a" "__owner__" (VStr (u "eve")) (PRet VNone)))].
Definition s_owned : mach := after seize_mods [owned_submit; submit_of "eve" "con_f" "seize"] (sub_start []).
Definition calls_a (who : string) : txn := mkTx (u who) (u "con_a") (u "f") [] [] false 1000 20 (Some false).
Definition t_seize : txn := mkTx (u "eve") (u "con_f") (u "f") [] [] false 1000 20 (Some false).
(** Any contract can make anyone the owner of any other contract: con_a serves bob and refuses eve, then the other way round *)
Theorem C119_seized_refuted : fst (owner_of (u "con_a") s_owned) = Ok (VStr (u "bob")) /\
  good_outcome seize_mods (calls_a "bob") s_owned = true /\ good_outcome seize_mods (calls_a "eve") s_owned = false /\ good_outcome seize_mods t_seize s_owned = true /\
  let s' := after seize_mods [t_seize] s_owned in fst (owner_of (u "con_a") s') = Ok (VStr (u "eve")) /\
  good_outcome seize_mods (calls_a "bob") s' = false /\ good_outcome seize_mods (calls_a "eve") s' = true.
Proof. cbv zeta. split; [|split; [|split; [|split; [|split; [|split]]]]]; vm_compute; reflexivity. Qed.
(** C61_example meets the hypotheses of C119_owner_stays_partial (s_calm to s_calm_end); there the owner is None: *)
Example C119_example : fst (owner_of (u "con_a") s_calm) = Ok VNone /\ fst (owner_of (u "con_a") s_calm_end) = Ok VNone.
Proof. split; vm_compute; reflexivity. Qed.
(** ... and in the middle of con_b a caller of con_a (owned by bob) *)
Example C119_who_example : let s := snd (enter (u "con_b") (idle_mach [(u "con_a.__owner__", VStr (u "con_b"))])) in
  c_this (get_state (s_ctx s)) = Some (u "con_b") /\ fst (owner_of (u "con_a") s) = Ok (VStr (u "con_b")) /\ fst (enter (u "con_a") (snd (owner_of (u "con_a") s))) = Ok tt.
Proof. cbv zeta. split; [|split]; vm_compute; reflexivity. Qed.
