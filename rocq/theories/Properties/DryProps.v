(** * C113: a dry run leaves no trace *)
From Verif Require Import Model.Base Model.State Model.Dec Model.Time Model.Value Model.Encoder Model.Hdf5 Model.Runtime Model.Driver Model.Orm Model.Exec Model.Executor.
From Verif Require Import Spec.OrmSpec Spec.DriverSpec Spec.ExecSpec Spec.DetSpec Spec.DrySpec Proofs.BaseFacts Proofs.DriverFacts Proofs.DiskFacts Proofs.OrmFacts Proofs.ExecFacts Proofs.ExecRel Proofs.MeterFacts Proofs.TxFacts Proofs.DrvRel Proofs.PhaseRel Proofs.CtxFacts Proofs.SimFacts Proofs.ModFacts.
From Verif Require Import Properties.DriverProps Properties.OrmProps Properties.Demo Properties.TxProps Properties.CtxProps Properties.DetProps.
From Coq Require Import Lia.
Local Open Scope nat_scope.

Lemma executed_frame L fuel g t s out s' : t_auto t = false -> execute L fuel g t s = (Ok out, s') ->
  dv_disk (s_drv s') = dv_disk (s_drv s) /\ dv_cache (s_drv s') = dv_cache (s_drv s) /\ dv_bypass (s_drv s') = dv_bypass (s_drv s).
Proof.
  intros A HE. apply execute_inv in HE as (_ & r & s1 & w & s3 & HP & _ & HF & -> & _). rewrite wind_up_drv.
  pose proof (phases_pending _ _ _ _ _ _ _ HP A) as (pw & pr & px & pe & HD). change (s_drv (began s)) with (set_txn [] (set_events [] (s_drv s))) in HD. cbn in HD.
  destruct (charge_fee_inv L g t _ _ _ _ _ (restore_off t (dv_writes (s_drv s)) r s1) HF) as (_ & _ & _ & _ & _ & HC).
  assert (HR : dv_disk (s_drv (restore t (dv_writes (s_drv s)) r s1)) = dv_disk (s_drv s) /\ dv_cache (s_drv (restore t (dv_writes (s_drv s)) r s1)) = dv_cache (s_drv s) /\ dv_bypass (s_drv (restore t (dv_writes (s_drv s)) r s1)) = dv_bypass (s_drv s)).
  { destruct r as [x|e]; [rewrite restore_drv_ok|rewrite (restore_drv_err _ _ _ _ A)]; rewrite HD; cbn; auto. }
  destruct HC as [(_ & -> & _)|(_ & [fee bal x reads _ _ _ _ _ FV])]; [exact HR|]. cbv zeta in FV. rewrite A in FV. rewrite FV. exact HR.
Qed.
Lemma dry_frame L fuel ok s s' : dry_runs L fuel ok s s' -> dv_disk (s_drv s') = dv_disk (s_drv s) /\ dv_bypass (s_drv s') = dv_bypass (s_drv s).
Proof.
  induction 1 as [s|g t s out s1 s' A O E H IH]; [auto|]. destruct (executed_frame _ _ _ _ _ _ _ A E) as (X & _ & Y). destruct IH as [-> ->]. auto.
Qed.
Lemma dry_resting L fuel s s' : plain_tops L -> S fuel <= RECURSION_LIMIT -> dry_runs L fuel (entry_decorated L) s s' -> resting s -> resting s'.
Proof.
  intros HP HF. induction 1 as [s|g t s out s1 s' A O E H IH]; [auto|]. intros [HI HM HS]. apply IH. constructor.
  - eapply executed_idle, E.
  - pose proof (executed_mods _ _ _ _ _ _ _ E) as HN. rewrite HM in HN. destruct (s_mods s1) as [|[k o] d]; [reflexivity|]. specialize (HN k o). cbn [dget] in HN. rewrite str_eqb_refl in HN. discriminate (HN eq_refl).
  - exact (C37_transaction_partial L fuel g t s _ s1 HP O HM HF HS E).
Qed.
Lemma rested_alike s s' : resting s -> resting s' -> all_committed s -> all_committed s' -> dv_disk (s_drv s') = dv_disk (s_drv s) -> dv_bypass (s_drv s') = dv_bypass (s_drv s) -> alike s s'.
Proof.
  intros [[I1 I2 I3 I4 I5 I6] M S] [[J1 J2 J3 J4 J5 J6] M' S'] (W1 & C1 & R1) (W2 & C2 & R2) HD HB. constructor; try congruence. constructor; try congruence.
  - intros k. unfold settled. rewrite !get_result. apply find_frame; cbn; congruence.
  - intros k. rewrite W1, R1. intros [X|X]; contradiction X; reflexivity.
  - intros k. rewrite W2, R2. intros [X|X]; contradiction X; reflexivity.
Qed.
Lemma same_result r1 r2 : same_report r1 r2 -> reported_reads r1 = reported_reads r2 -> r1 = r2.
Proof.
  destruct r1 as [[]|e1], r2 as [[]|e2]; cbn; try contradiction; [|congruence].
  intros (-> & -> & -> & -> & ->) ->. reflexivity.
Qed.
(** Full statement: transactions that are run without committing, and then rolled back, leave no trace: the next transaction, whatever it is, reports the
    same (result, stamps, writes, reads, events), and leaves the same in storage, as if they had not been run.
    Proved for transactions that return (C113_raised_refuted), when everything was committed before (C113_pending_refuted), and no context frame is
    left behind (C113_stuck_refuted). *)
Theorem C113_no_trace_partial L fuel s s' : plain_tops L -> S fuel <= RECURSION_LIMIT -> resting s -> all_committed s ->
  dry_runs L fuel (entry_decorated L) s s' ->
  (forall k, reads_as (rolled_back s') k = reads_as s k) /\
  forall fuel' g t,
    let real := execute L fuel' g t s in let after_dry := execute L fuel' g t (rolled_back s') in
    fst after_dry = fst real /\
    (clean_end t (fst real) -> dv_disk (s_drv (snd after_dry)) = dv_disk (s_drv (snd real)) /\ forall k, reads_as (snd after_dry) k = reads_as (snd real) k).
Proof.
  intros HP HF HR HC H. destruct (dry_frame _ _ _ _ _ H) as [HD HB]. pose proof (dry_resting _ _ _ _ HP HF H HR) as HR'.
  assert (HR2 : resting (rolled_back s')) by (destruct HR' as [[] ? ?]; constructor; [constructor|..]; assumption).
  assert (HC2 : all_committed (rolled_back s')) by (repeat split).
  assert (HA : alike s (rolled_back s')) by (apply rested_alike; assumption).
  assert (HK : dv_cache (s_drv s) = dv_cache (s_drv (rolled_back s'))) by (destruct HC as (_ & -> & _); reflexivity).
  assert (HE : dv_reads (s_drv s) = dv_reads (s_drv (rolled_back s'))) by (destruct HC as (_ & _ & ->); reflexivity).
  split.
  { intros k. unfold reads_as. rewrite !get_result. apply find_frame; [exact HB|symmetry; exact HK|exact HD|]. destruct HC as (-> & _). reflexivity. }
  intros fuel' g t. cbv zeta. destruct (all_listed_ok True True L s (conj I I)) as [HL HM].
  destruct (execute_sim True True True L HL fuel' g t (fun _ => I) s (rolled_back s') HA HM (fun _ => HE) (fun _ => eq_sym HD) (fun _ => HK)) as [E1 E2].
  assert (CE : clean_end t (fst (execute L fuel' g t s)) \/ exists e, fst (execute L fuel' g t s) = Err e).
  { destruct (fst (execute L fuel' g t s)) as [out|e]; [left; right; eauto|right; eauto]. }
  split.
  - destruct CE as [CE|[e Ee]]; [symmetry; apply same_result; [exact E1|]; apply (E2 CE); exact I|]. rewrite Ee in *. destruct (fst (execute L fuel' g t (rolled_back s'))); [contradiction|]. cbn in E1. congruence.
  - intros CL. destruct (E2 CL) as (A1 & _ & _ & A2 & A3). split; [symmetry; exact (A2 I)|]. intros k. unfold reads_as. rewrite !get_result.
    apply find_frame; [symmetry; apply A1|symmetry; exact (A3 I)|symmetry; exact (A2 I)|]. f_equal. symmetry. apply A1.
Qed.

(** ** The exceptions, and an instance *)
Definition saved_all (s : mach) : mach := snd (on_w (on_drv commit) s).
Definition free_call (sender contract : string) (env : dict pyval) : txn := mkTx (u sender) (u contract) (u "f") [] env false 1000 20 (Some false).
Definition status_of (r : result output) : option Z := match r with Ok o => Some (o_status o) | Err _ => None end.
Definition dry (L : lang) (t : txn) (s : mach) : mach := rolled_back (snd (execute L 10 cfg0 t s)).
(** One dry run of a contract that is refused by another one's owner check (see C37) makes every later transaction fail *)
Definition stuck_saved : mach := saved_all stuck_start.
Definition t_poke : txn := free_call "bob" "con_a" [].
Definition t_alice : txn := free_call "alice" "con_o" [].
Theorem C113_stuck_refuted : resting stuck_saved /\ all_committed stuck_saved /\ status_of (fst (execute stuck_lang 10 cfg0 t_poke stuck_saved)) = Some 1%Z /\
  status_of (fst (execute stuck_lang 10 cfg0 t_alice stuck_saved)) = Some 0%Z /\
  status_of (fst (execute stuck_lang 10 cfg0 t_alice (dry stuck_lang t_poke stuck_saved))) = Some 1%Z.
Proof.
  split; [constructor; [constructor|..]; vm_compute; reflexivity|]. split; [repeat split; vm_compute; reflexivity|].
  split; [vm_compute; reflexivity|]. split; vm_compute; reflexivity.
Qed.
(** A dry run that raises (no fee can be taken from a text) leaves its environment behind: code that asks for 'x' finds it *)
Definition asks_mod : modul := only_f (u "con_q") (PEnv (u "x") (fun v => PRet v)).
Definition spoil_lang : lang := demo [(u "con_j", only_f (u "con_j") (put_h "currency" "balances" "carol" (VStr (u "x")) (PRet VNone))); (u "con_q", asks_mod)].
Definition spoil_start : mach := saved_all (idle_mach (deployed (u "con_j") (u "con_j") VNone ++ deployed (u "con_q") (u "con_q") VNone ++ funded "carol" 100)).
Definition t_spoil : txn := mkTx (u "carol") (u "con_j") (u "f") [] [(u "x", VInt 5)] false 1000 20 (Some true).
Definition t_asks : txn := free_call "bob" "con_q" [].
Definition answer_of (r : result output) : result pyval := match r with Ok o => o_result o | Err e => Err e end.
Theorem C113_raised_refuted : resting spoil_start /\ all_committed spoil_start /\ fst (execute spoil_lang 10 cfg0 t_spoil spoil_start) = Err EType /\
  answer_of (fst (execute spoil_lang 10 cfg0 t_asks spoil_start)) = Err EName /\
  answer_of (fst (execute spoil_lang 10 cfg0 t_asks (dry spoil_lang t_spoil spoil_start))) = Ok (VInt 5).
Proof.
  split; [constructor; [constructor|..]; vm_compute; reflexivity|]. split; [repeat split; vm_compute; reflexivity|].
  split; [vm_compute; reflexivity|]. split; vm_compute; reflexivity.
Qed.
(** rollback also takes back what was pending before *)
Theorem C113_pending_refuted s k x : dv_bypass (s_drv s) = false -> dv_cache (s_drv s) = [] -> dget k (dv_writes (s_drv s)) = Some x -> x <> VNone ->
  reads_as s k = Ok x /\ reads_as (rolled_back s) k = fresh_read (dv_disk (s_drv s)) k.
Proof.
  intros HB HC HW HN. unfold reads_as. rewrite !get_result. split.
  - unfold find, pget. rewrite HB, HC, HW. destruct x; try contradiction; reflexivity.
  - rewrite fresh_read_value. unfold find, rolled_back, pget. cbn. unfold s_drv in HB. rewrite HB. reflexivity.
Qed.
(** A contract counts its calls; after three dry runs, the second of which fails, the next call still answers 1 *)
Definition counting : prog := PAct (ActVarGet (var_decl (u "con_n") (u "n") None (VInt 0))) (fun v => match v with VInt z => put "con_n" "n" (VInt (z + 1)) (PRet (VInt (z + 1))) | _ => PRaise EType end).
Definition counts_lang : lang := demo [(u "con_n", only_f (u "con_n") counting)].
Definition counts_start : mach := saved_all (idle_mach (deployed (u "con_n") (u "con_n") VNone ++ funded "carol" 100)).
Definition t_count : txn := mkTx (u "carol") (u "con_n") (u "f") [] [] false 1000 20 (Some true).
Definition t_missing : txn := mkTx (u "carol") (u "con_n") (u "g") [] [] false 1000 20 (Some true).
Definition counts_1 : mach := snd (execute counts_lang 10 cfg0 t_count counts_start).
Definition counts_2 : mach := snd (execute counts_lang 10 cfg0 t_missing counts_1).
Definition counts_3 : mach := snd (execute counts_lang 10 cfg0 t_count counts_2).
Lemma counts_ran t s : is_ok (fst (execute counts_lang 10 cfg0 t s)) = true -> exists out, execute counts_lang 10 cfg0 t s = (Ok out, snd (execute counts_lang 10 cfg0 t s)).
Proof. destruct (execute counts_lang 10 cfg0 t s) as [[out|e] s']; [eauto|discriminate]. Qed.
Example C113_example : plain_tops counts_lang /\ resting counts_start /\ all_committed counts_start /\
  dry_runs counts_lang 10 (entry_decorated counts_lang) counts_start counts_3 /\
  answer_of (fst (execute counts_lang 10 cfg0 t_count counts_2)) = Ok (VInt 2) /\
  answer_of (fst (execute counts_lang 10 cfg0 t_count (rolled_back counts_3))) = Ok (VInt 1).
Proof.
  assert (HI : forall b md, l_interp counts_lang b = Ok md -> md = only_f (u "con_n") counting).
  { intros b md. unfold counts_lang, demo, l_interp. cbn [dget]. destruct (str_eqb b (u "con_n")); [|discriminate]. intros E. injection E as <-. reflexivity. }
  assert (HD : forall t s, t_contract t = u "con_n" -> entry_decorated counts_lang t s).
  { intros t s HT md f E F. assert (HM : exists b, l_interp counts_lang b = Ok md).
    { unfold fetch in E. rewrite bind_eq in E. destruct (on_w (on_drv (get_compiled (t_contract t))) s) as [[c|e] s1]; [|discriminate E]. rewrite bind_eq in E. unfold lift in E at 1.
      destruct c; try discriminate E; [destruct (fromhex s0) as [b|]; [|discriminate E]; exists b; exact E|eexists; exact E]. }
    destruct HM as [b HB]. apply HI in HB. subst md. cbn [only_f m_funcs dget] in F. destruct (str_eqb (t_function t) (u "f")); [|discriminate F]. injection F as <-. rewrite HT. reflexivity. }
  split. { constructor; [intros b md HB; apply HI in HB; subst md; split; exact I|]. intros n md m f a. unfold counts_lang, demo, l_host. destruct (str_eqb n (u "os")); [|discriminate]. intros E. injection E as <-. cbn [os_module m_funcs dget]. destruct (str_eqb m (u "system")); [|discriminate]. intros E. injection E as <-. split; exact I. }
  split; [constructor; [constructor|..]; vm_compute; reflexivity|]. split; [repeat split; vm_compute; reflexivity|].
  split.
  { destruct (counts_ran t_count counts_start) as [o1 E1]; [vm_compute; reflexivity|]. destruct (counts_ran t_missing counts_1) as [o2 E2]; [vm_compute; reflexivity|]. destruct (counts_ran t_count counts_2) as [o3 E3]; [vm_compute; reflexivity|].
    exact (dry_step counts_lang 10 (entry_decorated counts_lang) cfg0 t_count counts_start o1 counts_1 counts_3 eq_refl (HD t_count counts_start eq_refl) E1
      (dry_step counts_lang 10 (entry_decorated counts_lang) cfg0 t_missing counts_1 o2 counts_2 counts_3 eq_refl (HD t_missing counts_1 eq_refl) E2
      (dry_step counts_lang 10 (entry_decorated counts_lang) cfg0 t_count counts_2 o3 counts_3 counts_3 eq_refl (HD t_count counts_2 eq_refl) E3 (dry_none counts_lang 10 (entry_decorated counts_lang) counts_3)))). }
  split; vm_compute; reflexivity.
Qed.
Print Assumptions C113_no_trace_partial.
Print Assumptions C113_stuck_refuted.
Print Assumptions C113_raised_refuted.
Print Assumptions C113_pending_refuted.
