(** * C108: clients of one process *)
From Verif Require Import Model.Base Model.State Model.Dec Model.Time Model.Value Model.Encoder Model.Hdf5 Model.Runtime Model.Driver Model.Orm Model.Exec Model.Executor Model.Client Model.Process.
From Verif Require Import Spec.ExecSpec Spec.DetSpec Spec.ClientSpec Proofs.BaseFacts Proofs.DriverFacts Proofs.PhaseRel Proofs.CtxFacts Properties.Demo Properties.ClientProps Properties.ClientCallProps Properties.CtxProps Properties.DetProps Properties.IsolationProps.
From Coq Require Import Lia.
Local Open Scope list_scope.

(** The process is between transactions that ended: nothing of them is left in the runtime *)
Record at_rest (p : process) : Prop := mkRest { ar_idle : idle (pr_mach p); ar_mods : s_mods (pr_mach p) = []; ar_stack : stack_of (pr_mach p) = [] }.
(** The environment a call through client [i] starts from *)
Definition start_env (p : process) (i : nat) (env : option (dict pyval)) : dict pyval :=
  match env with Some (x :: e) => x :: e | _ => match se_env (pr_seat p i) with Some e => e | None => pr_default p end end.
(** A call that does not change the default environment *)
Definition own_environment (p : process) (i : nat) (env : option (dict pyval)) : Prop := se_env (pr_seat p i) <> None \/ exists x e, env = Some (x :: e).
(** What a call through client [i] asks its executor for *)
Definition call_tx (clock : pyval) (i : nat) (sg n f : pystr) (kw : dict pyval) (env : option (dict pyval)) (meter : option bool) (now : option pyval) (p : process) (t : txn) : Prop :=
  exists tm e, time_of_call now clock tm /\ with_time (start_env p i env) tm e /\ t = client_tx sg n f kw e meter.

Lemma some_time now clock : exists tm, time_of_call now clock tm.
Proof. destruct now as [t|]; [destruct (is_none t) eqn:E|]; [exists clock; right; left; destruct t; try discriminate E; auto|exists t; right; right; split; [reflexivity|intros ->; discriminate E]|exists clock; left; auto]. Qed.
(** What a call does: it runs one transaction with the client's driver *)
Lemma call_as_run L fuel i clock sg n f kw env meter now p : exists t, call_tx clock i sg n f kw env meter now p t /\
  let run := execute L fuel (se_cfg (pr_seat p i)) t (with_driver (se_drv (pr_seat p i)) (pr_mach p)) in
  let after := call_as L fuel i clock sg n f kw env meter now p in
  fst after = answer (fst run) /\ pr_mach (snd after) = snd run /\ se_drv (pr_seat (snd after) i) = s_drv (snd run) /\
  (forall j, j <> i -> pr_seat (snd after) j = pr_seat p j) /\
  (own_environment p i env -> pr_default (snd after) = pr_default p).
Proof.
  destruct (some_time now clock) as (tm & HT). destruct (C77_environment L fuel clock sg n f kw env meter now tm (as_client p i) HT) as (e' & HW & H). cbv zeta in H. destruct H as (H1 & H2 & H3 & H4 & H5).
  exists (client_tx sg n f kw e' meter). split; [exists tm, e'; split; [exact HT|split; [exact HW|reflexivity]]|]. cbv zeta. unfold call_as.
  change (k_cfg (as_client p i)) with (se_cfg (pr_seat p i)) in *. change (k_mach (as_client p i)) with (with_driver (se_drv (pr_seat p i)) (pr_mach p)) in *.
  destruct (call_contract L fuel clock sg n f kw env meter now (as_client p i)) as [r c]. cbn [fst snd] in *.
  split; [exact H1|]. split; [exact H2|]. split; [cbn [after_call pr_seat]; rewrite Nat.eqb_refl; cbn [se_drv]; rewrite H2; reflexivity|]. split.
  - intros j NJ. cbn [after_call pr_seat]. apply Nat.eqb_neq in NJ. rewrite NJ. reflexivity.
  - intros HO. cbn [after_call pr_default]. destruct (se_env (pr_seat p i)) as [e|] eqn:EE; [reflexivity|]. destruct HO as [HO|(x & l & ->)]; [congruence|]. rewrite H3. cbn [as_client k_env]. rewrite EE. reflexivity.
Qed.
(** A call whose transaction returned leaves the process at rest, if no code leaves a context frame behind (see C37) *)
Theorem C108_at_rest L fuel i clock sg n f kw env meter now p : at_rest p ->
  plain_tops L -> S fuel <= RECURSION_LIMIT ->
  (forall t, call_tx clock i sg n f kw env meter now p t -> entry_decorated L t (with_driver (se_drv (pr_seat p i)) (pr_mach p)) /\
     exists out s', execute L fuel (se_cfg (pr_seat p i)) t (with_driver (se_drv (pr_seat p i)) (pr_mach p)) = (Ok out, s')) ->
  at_rest (snd (call_as L fuel i clock sg n f kw env meter now p)).
Proof.
  intros [HI HM HS] HL HF HE. destruct (call_as_run L fuel i clock sg n f kw env meter now p) as (t & HT & H). cbv zeta in H. destruct H as (_ & H2 & _).
  destruct (HE t HT) as (HD & out & s' & E). rewrite E in H2. cbn [snd] in H2. constructor; rewrite H2.
  - eapply executed_idle, E.
  - pose proof (C105_no_module_outlives_partial _ _ _ _ _ _ _ E) as HN. destruct (s_mods s') as [|[k o] d]; [reflexivity|]. specialize (HN k o). change (s_mods (with_driver (se_drv (pr_seat p i)) (pr_mach p))) with (s_mods (pr_mach p)) in HN. rewrite HM in HN.
    cbn [dget] in HN. rewrite str_eqb_refl in HN. discriminate (HN eq_refl).
  - eapply (C37_transaction_partial L fuel _ t _ _ _ HL HD); [exact HM|exact HF|exact HS|exact E].
Qed.
(** C108, proved: a call through client [i] that uses an environment of its own changes nothing for another client [j]: the next call through [j] answers the same,
    and leaves the same storage, as if [i] had not been used *)
Lemma same_answer r1 r2 : same_report r1 r2 -> answer r1 = answer r2.
Proof. destruct r1 as [o1|e1], r2 as [o2|e2]; cbn [same_report answer]; try contradiction; [|congruence]. intros (-> & -> & _). reflexivity. Qed.
Lemma rest_alike p p' i : at_rest p -> at_rest p' -> se_drv (pr_seat p' i) = se_drv (pr_seat p i) -> sound_reads (se_drv (pr_seat p i)) ->
  alike (with_driver (se_drv (pr_seat p i)) (pr_mach p)) (with_driver (se_drv (pr_seat p' i)) (pr_mach p')).
Proof.
  intros [[I1 I2 I3 I4 I5 I6] M S] [[I1' I2' I3' I4' I5' I6'] M' S'] -> HR. constructor.
  - constructor; try reflexivity; exact HR.
  - change (rt_tracer (s_rt (pr_mach p)) = rt_tracer (s_rt (pr_mach p'))). congruence.
  - change (rt_writes (s_rt (pr_mach p)) = rt_writes (s_rt (pr_mach p'))). congruence.
  - change (rt_env (s_rt (pr_mach p)) = rt_env (s_rt (pr_mach p'))). congruence.
  - change (rt_loaded (s_rt (pr_mach p)) = rt_loaded (s_rt (pr_mach p'))). congruence.
  - change (rt_seeded (s_rt (pr_mach p)) = rt_seeded (s_rt (pr_mach p'))). congruence.
  - change (stack_of (pr_mach p) = stack_of (pr_mach p')). congruence.
  - change (s_mods (pr_mach p) = s_mods (pr_mach p')). congruence.
  - change (s_restricted (pr_mach p) = s_restricted (pr_mach p')). congruence.
Qed.
(** Any number of calls through other clients than [j], each with an environment of its own, each of which ends with the process at rest *)
Inductive used_by_others (L : lang) (fuel j : nat) : process -> process -> Prop :=
| ub_none p : used_by_others L fuel j p p
| ub_call i clock sg n f kw env meter now p p' : i <> j -> own_environment p i env ->
    at_rest (snd (call_as L fuel i clock sg n f kw env meter now p)) ->
    used_by_others L fuel j (snd (call_as L fuel i clock sg n f kw env meter now p)) p' -> used_by_others L fuel j p p'.
Lemma others_same L fuel j p p' : used_by_others L fuel j p p' -> at_rest p -> at_rest p' /\ pr_seat p' j = pr_seat p j /\ pr_default p' = pr_default p.
Proof.
  induction 1 as [p|i clock sg n f kw env meter now p p' NE HO HA H IH]; intros HR; [auto|]. destruct (IH HA) as (I1 & I2 & I3). split; [exact I1|].
  destruct (call_as_run L fuel i clock sg n f kw env meter now p) as (t & _ & K). cbv zeta in K. destruct K as (_ & _ & _ & H4 & H5). rewrite I2, I3. split; [apply H4; congruence|apply H5, HO].
Qed.
Theorem C108_independent_partial L fuel j p p' clock' sg' n' f' kw' env' meter' now' :
  at_rest p -> used_by_others L fuel j p p' -> sound_reads (se_drv (pr_seat p j)) ->
  let alone := call_as L fuel j clock' sg' n' f' kw' env' meter' now' p in
  let together := call_as L fuel j clock' sg' n' f' kw' env' meter' now' p' in
  fst together = fst alone /\
  reads_same (se_drv (pr_seat (snd alone) j)) (se_drv (pr_seat (snd together) j)) /\
  dv_disk (se_drv (pr_seat (snd alone) j)) = dv_disk (se_drv (pr_seat (snd together) j)) /\
  dv_cache (se_drv (pr_seat (snd alone) j)) = dv_cache (se_drv (pr_seat (snd together) j)).
Proof.
  intros HA HU HR alone together. destruct (others_same L fuel j p p' HU HA) as (HA' & HSeat & H5). clear HU.
  assert (EC : as_client p' j = set_kmach (with_driver (se_drv (pr_seat p j)) (pr_mach p')) (as_client p j)). { unfold as_client. rewrite HSeat, H5. reflexivity. }
  pose proof (rest_alike p p' j HA HA' (f_equal se_drv HSeat) HR) as AL. rewrite HSeat in AL.
  unfold alone, together, call_as. rewrite EC. clear alone together EC.
  (* the transaction is the same *)
  assert (K : exists t g, forall s, exists c, call_contract L fuel clock' sg' n' f' kw' env' meter' now' (set_kmach s (as_client p j)) = (answer (fst (execute L fuel g t s)), c) /\ k_mach c = snd (execute L fuel g t s) /\ t_auto t = false).
  { set (c0 := as_client p j). clearbody c0.
    set (e := if is_none (pget NOW (match env' with Some (x :: l) => x :: l | _ => k_env c0 end)) then dset NOW (match now' with Some tn => if is_none tn then clock' else tn | None => clock' end) (match env' with Some (x :: l) => x :: l | _ => k_env c0 end) else (match env' with Some (x :: l) => x :: l | _ => k_env c0 end)).
    exists (client_tx sg' n' f' kw' e meter'), (k_cfg c0). intros s. unfold call_contract. rewrite bind_eq. cbn [gets]. cbn [set_kmach k_env]. fold e. rewrite bind_eq.
    destruct env' as [[|x l]|]; cbn [modify ret].
    all: rewrite bind_eq; unfold on_m; cbn [k_mach set_kenv set_kmach k_cfg]; change DEFAULT_STAMPS with 1000000%Z; change STAMPS_PER_TAU with 20%Z; fold (client_tx sg' n' f' kw' e meter').
    all: destruct (execute L fuel (k_cfg c0) (client_tx sg' n' f' kw' e meter') s) as [[o|e0] s1]; cbn [fst snd answer]; [|eexists; split; [reflexivity|split; reflexivity]].
    all: destruct (Z.eqb (o_status o) 1); eexists; (split; [reflexivity|split; reflexivity]). }
  destruct K as (t0 & g & K).
  destruct (K (with_driver (se_drv (pr_seat p j)) (pr_mach p'))) as (c2 & E2 & M2 & TA). rewrite E2.
  destruct (K (with_driver (se_drv (pr_seat p j)) (pr_mach p))) as (c1 & E1 & M1 & _). change (set_kmach (with_driver (se_drv (pr_seat p j)) (pr_mach p)) (as_client p j)) with (as_client p j) in E1. rewrite E1.
  destruct (C50_same_storage L fuel g t0 _ _ AL eq_refl eq_refl) as [Q1 Q2]. cbn [fst snd after_call pr_seat]. rewrite Nat.eqb_refl. cbn [se_drv]. rewrite M1, M2.
  destruct (Q2 (or_introl TA)) as ([AD _ _ _ _ _ _ _ _] & D1 & D2). split; [symmetry; apply same_answer; exact Q1|]. auto.
Qed.

(** C108, REFUTED: two clients that were made without an environment share one.  After a call through client [i] at some time, every call through client [j] runs at that
    time: the clock no longer matters *)
Theorem C108_shared_time_refuted L fuel i j p clock sg n f kw meter clock' clock'' sg' n' f' kw' meter' now' :
  i <> j -> se_env (pr_seat p i) = None -> se_env (pr_seat p j) = None -> is_none (pget NOW (pr_default p)) = true -> is_none clock = false ->
  let p' := snd (call_as L fuel i clock sg n f kw None meter None p) in
  call_as L fuel j clock' sg' n' f' kw' None meter' now' p' = call_as L fuel j clock'' sg' n' f' kw' None meter' now' p' /\
  pget NOW (k_env (as_client p' j)) = clock.
Proof.
  intros NE Ei Ej HN HC p'.
  assert (HK : pget NOW (k_env (as_client p' j)) = clock).
  { unfold p', call_as. destruct (C77_first_call_partial L fuel clock sg n f kw meter (as_client p i)) as (_ & _ & HE); [unfold as_client; cbn [k_env]; rewrite Ei; exact HN|].
    destruct (call_contract L fuel clock sg n f kw None meter None (as_client p i)) as [r c]. cbn [snd] in *. unfold as_client. cbn [after_call pr_seat pr_default k_env].
    destruct (Nat.eqb j i) eqn:Q; [apply Nat.eqb_eq in Q; congruence|]. rewrite Ej, Ei, HE. unfold pget. rewrite dget_dset_same. reflexivity. }
  split; [|exact HK]. unfold call_as. rewrite (proj1 (C77_frozen_refuted L fuel clock' clock'' sg' n' f' kw' meter' now' (as_client p' j) ltac:(rewrite HK; exact HC))). reflexivity.
Qed.
(** Two clients with storage of their own; the contract's function answers the time *)
Definition one_seat (e : option (dict pyval)) : seat := mkSeat (s_drv (k_mach priv_client)) (k_cfg priv_client) (u "sys") e.
Definition two (e : option (dict pyval)) : process := mkProc (idle_mach []) [] (fun _ => one_seat e).
Notation ask i clock p := (call_as priv_lang 10 i (VInt clock) (u "eve") (u "con_p") (u "f") [] None None None p).
Theorem C108_refuted : exists p, at_rest p /\ fst (ask 1 99 p) = Ok (VInt 99) /\ fst (ask 1 99 (snd (ask 0 5 p))) = Ok (VInt 5).
Proof. exists (two None). split; [constructor; [constructor; reflexivity|reflexivity|reflexivity]|]. split; vm_compute; reflexivity. Qed.
Example C108_example : at_rest (two (Some [])) /\ at_rest (snd (ask 0 5 (two (Some [])))) /\ sound_reads (se_drv (pr_seat (two (Some [])) 1)) /\ own_environment (two (Some [])) 0 None /\
  fst (ask 0 5 (two (Some []))) = Ok (VInt 5) /\ fst (ask 1 99 (snd (ask 0 5 (two (Some []))))) = Ok (VInt 99).
Proof.
  split; [constructor; [constructor; reflexivity|reflexivity|reflexivity]|]. split; [constructor; [constructor; vm_compute; reflexivity|vm_compute; reflexivity|vm_compute; reflexivity]|].
  split; [apply sound_by; vm_compute; reflexivity|]. split; [left; discriminate|]. split; vm_compute; reflexivity.
Qed.
Example C108_used : used_by_others priv_lang 10 1 (two (Some [])) (snd (ask 0 5 (two (Some [])))).
Proof.
  pose proof (proj1 (proj2 C108_example)) as H. pose proof (proj1 (proj2 (proj2 (proj2 C108_example)))) as HO. revert H HO. generalize (two (Some [])) as p. intros p H HO.
  refine (ub_call priv_lang 10 1 0 (VInt 5) (u "eve") (u "con_p") (u "f") [] None None None p _ _ HO H (ub_none _ _ _ _)). discriminate.
Qed.
