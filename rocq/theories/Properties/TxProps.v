(** * C43-C49, C51: transactions *)
From Verif Require Import Model.Base Model.State Model.Dec Model.Time Model.Value Model.Encoder Model.Hdf5 Model.Runtime Model.Driver Model.Orm Model.Exec Model.Executor.
From Verif Require Import Spec.DecSpec Spec.EncSpec Spec.DriverSpec Spec.OrmSpec Spec.ExecSpec Proofs.BaseFacts Proofs.DriverFacts Proofs.OrmFacts Proofs.ExecFacts Proofs.ExecRel Proofs.MeterFacts Proofs.TxFacts Proofs.DrvRel Proofs.LogFacts Proofs.DiskFacts Proofs.ReachFacts Proofs.DecFacts Proofs.DecOps Proofs.DecFloat Proofs.EncFacts.
From Verif Require Import Properties.DecProps Properties.DriverProps Properties.OrmProps Properties.Demo.
From Coq Require Import Lia.
Open Scope Z_scope.

(** ** C45: a failed transaction *)
(** Contract code changes only the pending writes, reads, events and transaction writes of the driver *)
Definition pending_only (v v' : driver) : Prop :=
  exists w r x e, v' = mkDv (dv_deltas v) w r x e (dv_cache v) (dv_bypass v) (dv_disk v).
Lemma pending_refl v : pending_only v v.
Proof. destruct v. unfold pending_only. eauto. Qed.
Lemma pending_trans a b c : pending_only a b -> pending_only b c -> pending_only a c.
Proof. intros (w & r & x & e & ->) (w' & r' & x' & e' & ->). unfold pending_only. cbn. eauto. Qed.
Lemma phases_pending L fuel g t s r s' : phases L fuel g t s r s' -> t_auto t = false -> pending_only (s_drv s) (s_drv s').
Proof.
  intros HP A. refine (phases_D L (fun _ _ => True) pending_only pending_refl pending_trans _ _ _ fuel g t s r s' (all_sets_any L s) HP A); intros; unfold pending_only; do 4 eexists; reflexivity.
Qed.
Lemma restore_off t saved r s : tr_started (rt_tracer (s_rt (restore t saved r s))) = false.
Proof. destruct (restore_same t saved r s) as (_ & -> & _). reflexivity. Qed.
Lemma find_frame v v' k : dv_bypass v' = dv_bypass v -> dv_cache v' = dv_cache v -> dv_disk v' = dv_disk v -> dget k (dv_writes v') = dget k (dv_writes v) -> find k v' = find k v.
Proof. intros A B C D. unfold find, pget. rewrite A, B, C, D. reflexivity. Qed.
Lemma wind_up_drv s : s_drv (wind_up s) = s_drv s. Proof. reflexivity. Qed.


(** What a failed transaction leaves behind, in terms of the pending writes that were saved at its start *)
Lemma failed L fuel g t saved s out s' :
  t_auto t = false -> transact L fuel g t saved s = (Ok out, s') -> o_status out = 1 ->
  o_events out = [] /\ dv_events (s_drv s') = [] /\ dv_txn (s_drv s') = [] /\
  dv_disk (s_drv s') = dv_disk (s_drv s) /\ dv_cache (s_drv s') = dv_cache (s_drv s) /\ dv_deltas (s_drv s') = dv_deltas (s_drv s) /\ dv_bypass (s_drv s') = dv_bypass (s_drv s) /\
  (metered g t = false -> dv_writes (s_drv s') = saved /\ o_writes out = []) /\
  (metered g t = true -> exists x, dv_writes (s_drv s') = dset (balance_key g t) x saved /\ o_writes out = [(balance_key g t, x)]).
Proof.
  intros A HE HS. apply transact_inv in HE as (r & s1 & w & s3 & HP & _ & HF & -> & ->). cbn [o_status o_events o_writes] in *.
  destruct r as [[[v wr] ev]|e]; [discriminate HS|]. clear HS. cbn [written] in HF.
  pose proof (phases_pending _ _ _ _ _ _ _ HP A) as (pw & pr & px & pe & HD).
  pose proof (restore_drv_err t saved e s1 A) as HR.
  destruct (charge_fee_inv L g t _ _ _ _ _ (restore_off t saved (Err e) s1) HF) as (_ & _ & _ & _ & _ & HC).
  rewrite wind_up_drv. set (s2 := restore t saved (Err e) s1) in *. clearbody s2. clear HP HF.
  assert (HV : s_drv s2 = mkDv (dv_deltas (s_drv s)) saved pr [] [] (dv_cache (s_drv s)) (dv_bypass (s_drv s)) (dv_disk (s_drv s))) by (rewrite HR, HD; reflexivity).
  clear HR HD. destruct HC as [(HM & -> & ->) | (HM & HP)].
  - rewrite HM, HV. cbn. repeat (split; [reflexivity|]). split; [|discriminate]. auto.
  - destruct HP as [fee bal x reads _ _ _ _ Hw Hd]. rewrite A in Hd. cbv zeta in Hd. rewrite HM, Hd, HV. cbn. repeat (split; [reflexivity|]). split; [discriminate|]. intros _.
    exists (max0 x). split; [reflexivity|exact Hw].
Qed.
Theorem C45_failed_transaction L fuel g t s out s' :
  t_auto t = false -> execute L fuel g t s = (Ok out, s') -> o_status out = 1 ->
  o_events out = [] /\ dv_events (s_drv s') = [] /\ dv_txn (s_drv s') = [] /\
  dv_disk (s_drv s') = dv_disk (s_drv s) /\ dv_cache (s_drv s') = dv_cache (s_drv s) /\ dv_deltas (s_drv s') = dv_deltas (s_drv s) /\
  (metered g t = false -> dv_writes (s_drv s') = dv_writes (s_drv s) /\ o_writes out = [] /\ forall k, reads_as s' k = reads_as s k) /\
  (metered g t = true -> exists x, dv_writes (s_drv s') = dset (balance_key g t) x (dv_writes (s_drv s)) /\ o_writes out = [(balance_key g t, x)] /\
     forall k, k <> balance_key g t -> reads_as s' k = reads_as s k).
Proof.
  intros A HE HS. unfold execute in HE. destruct (refused g t); [discriminate HE|]. apply (failed _ _ _ _ _ _ _ _ A) in HE; [|exact HS].
  destruct HE as (H1 & H2 & H3 & H4 & H5 & H6 & H7 & H8 & H9).
  split; [exact H1|]. split; [exact H2|]. split; [exact H3|]. split; [exact H4|]. split; [exact H5|]. split; [exact H6|]. split.
  - intros M. destruct (H8 M) as [B1 B2]. split; [exact B1|]. split; [exact B2|]. intros k. unfold reads_as. rewrite !get_result. apply find_frame; [exact H7|exact H5|exact H4|rewrite B1; reflexivity].
  - intros M. destruct (H9 M) as (x & B1 & B2). exists x. split; [exact B1|]. split; [exact B2|]. intros k Hk. unfold reads_as. rewrite !get_result.
    apply find_frame; [exact H7|exact H5|exact H4|]. rewrite B1. apply dget_dset_other. exact Hk.
Qed.
(** A call fails with status 1 in all other cases: execute itself raises only when it refuses the name, for a
    BaseException of the contract, and when the fee cannot be computed *)
Theorem C45_when_it_raises L fuel g t s e s' : execute L fuel g t s = (Err e, s') ->
  refused g t = true \/ e = EBase \/ metered g t = true.
Proof.
  unfold execute. destruct (refused g t); [auto|]. unfold transact. destruct (attempt L fuel g t _) as [r s1]. destruct (metered g t) eqn:HM; [auto|].
  destruct r as [[[v w] ev]|x].
  - unfold charge_fee. rewrite HM. discriminate.
  - unfold charge_fee. destruct x; rewrite ?HM; try discriminate. intros E. injection E as <- _. auto.
Qed.
(** Two assignments, then an assertion; an event and an earlier pending write *)
Definition fail_prog (e : exn) := put "con_m" "x" (VInt 5) (PAct (ActEmit (u "Sent") [(u "n", mkParam (Some [TInt]) false)] [(u "n", VInt 7)]) (fun _ => put "con_m" "y" (VInt 6) (PRaise e))).
Definition fail_lang e := demo [(u "con_m", only_f (u "con_m") (fail_prog e))].
Definition fail_start := idle_mach (deployed (u "con_m") (u "con_m") VNone ++ funded "bob" 100 ++ [(u "con_m.x", VInt 1)]).
Example C45_example : match execute (fail_lang EAssertion) 10 cfg0 (call_of "bob" "con_m" "f") fail_start with
  | (Ok out, s') => o_status out = 1 /\ reads_as s' (u "con_m.x") = Ok (VInt 1) /\ reads_as s' (u "con_m.y") = Ok VNone /\ List.length (o_writes out) = 1%nat /\
      reads_as s' (u "currency.balances:bob") = Ok (VDec (mkfd false 9975 (-2)))
  | _ => False end.
Proof. vm_compute. auto. Qed.
(** A BaseException (contract code can raise one: Exception.mro()[1]('x')) leaves all writes pending and charges nothing,
    and the next transactions run with restricted imports still in place *)
Theorem C45_base_exception_refuted : exists L g t s s', t_auto t = false /\ idle s /\ execute L 10 g t s = (Err EBase, s') /\
  reads_as s (u "con_m.x") = Ok (VInt 1) /\ reads_as s' (u "con_m.x") = Ok (VInt 5) /\ reads_as s (u "con_m.y") = Ok VNone /\ reads_as s' (u "con_m.y") = Ok (VInt 6) /\
  reads_as s' (balance_key g t) = reads_as s (balance_key g t) /\ s_restricted s' = true.
Proof.
  exists (fail_lang EBase), cfg0, (call_of "bob" "con_m" "f"), fail_start, (snd (execute (fail_lang EBase) 10 cfg0 (call_of "bob" "con_m" "f") fail_start)).
  split; [reflexivity|]. split; [constructor; reflexivity|]. vm_compute. repeat (split; [reflexivity|]). reflexivity.
Qed.
(** An error while the fee is charged leaves all writes pending too: here the currency contract made the balance a text *)
Definition text_balance := demo [(u "currency", only_f (u "currency") (put_h "currency" "balances" "bob" (VStr (u "all of it")) (put "currency" "x" (VInt 5) (PRet VNone))))].
Definition text_start := idle_mach (deployed (u "currency") (u "currency") VNone ++ funded "bob" 100).
Theorem C45_fee_error_refuted : exists L g t s s', t_auto t = false /\ idle s /\ execute L 10 g t s = (Err EType, s') /\
  reads_as s (u "currency.x") = Ok VNone /\ reads_as s' (u "currency.x") = Ok (VInt 5).
Proof.
  exists text_balance, cfg0, (call_of "bob" "currency" "f"), text_start, (snd (execute text_balance 10 cfg0 (call_of "bob" "currency" "f") text_start)).
  split; [reflexivity|]. split; [constructor; reflexivity|]. vm_compute. repeat (split; [reflexivity|]). reflexivity.
Qed.

(** ** C46: an explicit driver *)
(** After a failure the driver in use has the pending writes of the executor's own driver (plus the fee) *)
Theorem C46_other_driver_writes_refuted L fuel g t self s out s' self' :
  t_auto t = false -> execute_on L fuel g t self s = ((Ok out, s'), self') -> o_status out = 1 -> metered g t = false ->
  dv_writes (s_drv s') = dv_writes self.
Proof.
  intros A HE HS M. unfold execute_on in HE. destruct (refused g t); [discriminate HE|].
  destruct (transact L fuel g t (dv_writes self) (fresh_log s)) as [r s2] eqn:HT. injection HE as -> -> _.
  apply (failed _ _ _ _ _ _ _ _ A) in HT; [|exact HS]. destruct HT as (_ & _ & _ & _ & _ & _ & _ & H8 & _). apply (H8 M).
Qed.
(** so the driver's own pending writes are lost and foreign ones appear *)
Definition own_driver := set_writes [(u "con_m.z", VInt 9)] (driver0 false []).
Theorem C46_refuted : exists L g t self s out s' self', t_auto t = false /\ execute_on L 10 g t self s = ((Ok out, s'), self') /\ o_status out = 1 /\
  reads_as s (u "con_m.x") = Ok (VInt 1) /\ reads_as s' (u "con_m.x") = Ok VNone /\ reads_as s (u "con_m.z") = Ok VNone /\ reads_as s' (u "con_m.z") = Ok (VInt 9).
Proof.
  set (R := execute_on (fail_lang EAssertion) 10 (mkCfg false (u "currency") (u "balances") false false) (mkTx (u "bob") (u "con_m") (u "f") [] [] false 1000 20 None) own_driver fail_start).
  exists (fail_lang EAssertion), (mkCfg false (u "currency") (u "balances") false false), (mkTx (u "bob") (u "con_m") (u "f") [] [] false 1000 20 None), own_driver, fail_start.
  exists (match R with ((Ok o, _), _) => o | _ => mkOut 0 (Ok VNone) 0 [] [] [] end), (snd (fst R)), (snd R).
  split; [reflexivity|]. vm_compute. repeat (split; [reflexivity|]). reflexivity.
Qed.
(** When both have the same pending writes the claim holds *)
Theorem C46_failed_transaction_partial L fuel g t self s out s' self' :
  dv_writes self = dv_writes (s_drv s) ->
  t_auto t = false -> execute_on L fuel g t self s = ((Ok out, s'), self') -> o_status out = 1 ->
  o_events out = [] /\ dv_events (s_drv s') = [] /\
  dv_disk (s_drv s') = dv_disk (s_drv s) /\ dv_cache (s_drv s') = dv_cache (s_drv s) /\ dv_deltas (s_drv s') = dv_deltas (s_drv s) /\
  (metered g t = false -> dv_writes (s_drv s') = dv_writes (s_drv s) /\ o_writes out = [] /\ forall k, reads_as s' k = reads_as s k) /\
  (metered g t = true -> exists x, dv_writes (s_drv s') = dset (balance_key g t) x (dv_writes (s_drv s)) /\ o_writes out = [(balance_key g t, x)] /\
     forall k, k <> balance_key g t -> reads_as s' k = reads_as s k).
Proof.
  intros HW A HE HS. unfold execute_on in HE. destruct (refused g t); [discriminate HE|].
  destruct (transact L fuel g t (dv_writes self) (fresh_log s)) as [r s2] eqn:HT. injection HE as -> -> _.
  apply (failed _ _ _ _ _ _ _ _ A) in HT; [|exact HS]. rewrite HW in HT.
  destruct HT as (H1 & H2 & H3 & H4 & H5 & H6 & H7 & H8 & H9). change (s_drv (fresh_log s)) with (s_drv s) in *.
  split; [exact H1|]. split; [exact H2|]. split; [exact H4|]. split; [exact H5|]. split; [exact H6|]. split.
  - intros M. destruct (H8 M) as [B1 B2]. split; [exact B1|]. split; [exact B2|]. intros k. unfold reads_as. rewrite !get_result. apply find_frame; [exact H7|exact H5|exact H4|rewrite B1; reflexivity].
  - intros M. destruct (H9 M) as (x & B1 & B2). exists x. split; [exact B1|]. split; [exact B2|]. intros k Hk. unfold reads_as. rewrite !get_result.
    apply find_frame; [exact H7|exact H5|exact H4|]. rewrite B1. apply dget_dset_other. exact Hk.
Qed.

(** ** C51: private functions *)
Theorem C51_refused L fuel g t s : g_bypass_privates g = false -> startswith (t_function t) (u "__") = true ->
  exists s', execute L fuel g t s = (Err EAssertion, s') /\ s_drv s' = set_events [] (set_txn [] (s_drv s)) /\ s_rt s' = s_rt s /\ s_mods s' = s_mods s /\ s_log s' = [].
Proof. intros A B. unfold execute, refused. rewrite A, B. cbn [negb andb]. eexists. split; [reflexivity|]. repeat split. Qed.
Example C51_example : fst (execute (fail_lang EAssertion) 10 cfg0 (call_of "bob" "con_m" "__f") fail_start) = Err EAssertion /\
  match fst (execute (fail_lang EAssertion) 10 cfg0 (call_of "bob" "con_m" "_f") fail_start) with Ok o => o_status o = 1 | _ => False end.
Proof. vm_compute. auto. Qed.

(** ** C48: reported writes *)
Lemma done_inv L fuel g t s out s' : execute L fuel g t s = (Ok out, s') -> o_status out = 0 ->
  exists kw s1 v s2 s3 w s5, prepare L fuel g t (began s) = (Ok kw, s1) /\ entry_call L fuel t kw (primed g t s1) = (Ok v, s2) /\
    (if t_auto t then on_w (on_drv commit) else ret tt) (stopped s2) = (Ok tt, s3) /\
    (let s4 := restore t (dv_writes (s_drv s)) (Ok (v, dv_txn (s_drv s2), dv_events (s_drv s2))) s3 in
     charge_fee L g t (stamps_used t s4) (dv_txn (s_drv s2)) s4 = (Ok w, s5) /\ s' = wind_up s5 /\
     out = mkOut 0 (Ok v) (stamps_used t s4) w (dv_reads (s_drv s5)) (dv_events (s_drv s2))).
Proof.
  intros HE HS. apply execute_inv in HE as (_ & r & s1 & w & s3 & HP & _ & HF & -> & ->). cbn [o_status o_stamps] in *.
  inversion HP as [e sa Ea X1|kw sa e sb Ea Eb X1|kw sa v sb e sc Ea Eb A Ec X1|kw sa v sb sc Ea Eb Ec X1]; subst r; try discriminate HS. subst sc.
  exists kw, sa, v, sb, s1, w, s3. cbv zeta. split; [exact Ea|]. split; [exact Eb|]. split; [exact Ec|]. split; [exact HF|]. split; reflexivity.
Qed.
(** After a successful transaction, the log of which is [s_log s'], exactly the assignments made by the contracts are
    reported, each with the value last assigned, and the fee balance when metered *)
Theorem C48_reported L fuel g t s out s' : execute L fuel g t s = (Ok out, s') -> o_status out = 0 ->
  (forall k, metered g t = false \/ k <> balance_key g t -> dget k (o_writes out) = final_write k (writes_of L (s_log s'))) /\
  (metered g t = true -> exists x, dget (balance_key g t) (o_writes out) = Some x /\ (t_auto t = false -> dget (balance_key g t) (dv_writes (s_drv s')) = Some x)).
Proof.
  intros HE HS. destruct (done_inv _ _ _ _ _ _ _ HE HS) as (kw & s1 & v & s2 & s3 & w & s5 & E1 & E2 & E3 & HX). cbv zeta in HX.
  set (s4 := restore t _ _ s3) in HX. destruct HX as (HF & -> & ->). cbn [o_writes].
  destruct (call_phase_logged L false fuel g t (began s) kw s1 _ s2 (orm_if_false L (began s)) E1 E2) as [(l & HL & HT & _)]. cbn in HL, HT.
  destruct (auto_same t s2 _ _ E3) as (G1 & _). assert (R1 : s_log s4 = s_log s3) by apply restore_same.
  assert (S4 : tr_started (rt_tracer (s_rt s4)) = false) by apply restore_off.
  destruct (charge_fee_inv L g t _ _ _ _ _ S4 HF) as (F1 & _ & _ & _ & _ & HC).
  change (s_log (wind_up s5)) with (s_log s5). rewrite F1, R1, G1, HL, wind_up_drv.
  assert (HW : forall k, dget k (dv_txn (s_drv s2)) = final_write k (writes_of L l)).
  { intros k. rewrite HT, dget_updated. destruct (final_write k (writes_of L l)); reflexivity. }
  destruct HC as [(HM & -> & ->) | (HM & [fee bal x reads _ _ _ _ Hw Hd])].
  - split; [intros k _; apply HW|congruence].
  - subst w. split.
    + intros k [H|H]; [congruence|]. rewrite dget_dset_other by exact H. apply HW.
    + intros _. exists (max0 x). split; [apply dget_dset_same|]. intros A. rewrite A in Hd. cbv zeta in Hd. rewrite Hd. cbn. apply dget_dset_same.
Qed.
(** When the contracts only assign (no Hash.clear, no submission), the pending writes changed exactly as reported *)
Theorem C48_exactly_partial L fuel g t s out s' : all_code orm_only L s -> t_auto t = false -> execute L fuel g t s = (Ok out, s') -> o_status out = 0 ->
  forall k, dget k (dv_writes (s_drv s')) = match dget k (o_writes out) with Some v => Some v | None => dget k (dv_writes (s_drv s)) end.
Proof.
  intros HA A HE HS. destruct (done_inv _ _ _ _ _ _ _ HE HS) as (kw & s1 & v & s2 & s3 & w & s5 & E1 & E2 & E3 & HX). cbv zeta in HX.
  set (s4 := restore t _ _ s3) in HX. destruct HX as (HF & -> & ->). cbn [o_writes].
  assert (HA' : all_code (orm_if true) L (began s)).
  { assert (HM : forall md, module_all orm_only md -> module_all (orm_if true) md).
    { intros md [H1 H2 H3]. constructor; intros; (eapply each_imp; [intros p Hp _; exact Hp|eauto]). }
    destruct HA as [[H1 H2] H3]. split; [split|]; [intros b md Hb; exact (HM _ (H1 b md Hb))|intros b md Hb; exact (HM _ (H2 b md Hb))|]. intros n md Hn. apply HM. exact (H3 n md Hn). }
  destruct (call_phase_logged L true fuel g t (began s) kw s1 _ s2 HA' E1 E2) as [(l & HL & HT & _ & HW)]. cbn in HL, HT. specialize (HW eq_refl). change (dv_writes (s_drv (began s))) with (dv_writes (s_drv s)) in HW.
  destruct (auto_same t s2 _ _ E3) as (_ & _ & _ & _ & _ & G1). specialize (G1 A).
  assert (S4 : tr_started (rt_tracer (s_rt s4)) = false) by apply restore_off.
  assert (W4 : dv_writes (s_drv s4) = dv_writes (s_drv s2)) by (unfold s4; rewrite restore_drv_ok, G1; reflexivity).
  destruct (charge_fee_inv L g t _ _ _ _ _ S4 HF) as (_ & _ & _ & _ & _ & HC). rewrite wind_up_drv.
  assert (H : forall k, dget k (dv_writes (s_drv s2)) = match dget k (dv_txn (s_drv s2)) with Some v => Some v | None => dget k (dv_writes (s_drv s)) end).
  { intros k. rewrite HT, HW, !dget_updated. destruct (final_write k (writes_of L l)); reflexivity. }
  intros k. destruct HC as [(HM & -> & ->) | (HM & [fee bal x reads _ _ _ _ Hw Hd])].
  - rewrite W4. apply H.
  - subst w. rewrite A in Hd. cbv zeta in Hd. rewrite Hd. cbn [dv_writes set_writes]. rewrite !dget_dset. destruct (str_eqb k (balance_key g t)); [reflexivity|]. rewrite W4. apply H.
Qed.
(** Two assignments to the same entry, one to another; one earlier pending write is untouched *)
Definition twice_lang := demo [(u "con_m", only_f (u "con_m") (put "con_m" "x" (VInt 5) (put_h "con_m" "h" "k" (VInt 6) (put "con_m" "x" (VInt 7) (PRet VNone)))))].
Definition twice_start := idle_mach (deployed (u "con_m") (u "con_m") VNone ++ funded "bob" 100 ++ [(u "con_m.z", VInt 1)]).
Lemma demo_all (Q : prog -> Prop) name (p : prog) ws : Q (PRet VNone) -> Q (PRet (VInt 0)) -> each Q p -> all_code Q (demo [(u name, only_f (u name) p)]) (idle_mach ws).
Proof.
  intros H0 H1 HP. split; [split|].
  - intros b md. unfold demo. cbn [l_interp dget]. destruct (str_eqb b (u name)); [|discriminate]. intros E. injection E as <-.
    constructor; [split; [exact H0|exact I]|discriminate|]. intros n f a. unfold only_f. cbn [m_funcs dget]. destruct (str_eqb n (u "f")); [|discriminate]. intros E. injection E as <-. exact HP.
  - intros n md. unfold demo. cbn [l_host]. destruct (str_eqb n (u "os")); [|discriminate]. intros E. injection E as <-.
    constructor; [split; [exact H0|exact I]|discriminate|]. intros m f a. unfold os_module. cbn [m_funcs dget]. destruct (str_eqb m (u "system")); [|discriminate]. intros E. injection E as <-. split; [exact H1|exact I].
  - intros n md. discriminate.
Qed.
Example C48_example : all_code orm_only twice_lang twice_start /\
  match execute twice_lang 10 cfg0 (call_of "bob" "con_m" "f") twice_start with
  | (Ok out, s') => o_status out = 0 /\ dkeys (o_writes out) = [u "con_m.x"; u "con_m.h:k"; u "currency.balances:bob"] /\ dget (u "con_m.x") (o_writes out) = Some (VInt 7)
  | _ => False end.
Proof. split; [|vm_compute; auto]. apply demo_all; cbn; repeat split. Qed.
(** Hash.clear deletes entries without reporting it *)
Definition clear_lang := demo [(u "con_m", only_f (u "con_m") (PAct (ActHashClear (hash_decl (u "con_m") (u "h") VNone) []) (fun _ => PRet VNone)))].
Definition clear_start := idle_mach (deployed (u "con_m") (u "con_m") VNone ++ funded "bob" 100 ++ [(u "con_m.h:k", VInt 1)]).
Theorem C48_clear_refuted : exists L g t s out s', t_auto t = false /\ idle s /\ execute L 10 g t s = (Ok out, s') /\ o_status out = 0 /\
  reads_as s (u "con_m.h:k") = Ok (VInt 1) /\ reads_as s' (u "con_m.h:k") = Ok VNone /\ dkeys (o_writes out) = [balance_key g t].
Proof.
  set (R := execute clear_lang 10 cfg0 (call_of "bob" "con_m" "f") clear_start).
  exists clear_lang, cfg0, (call_of "bob" "con_m" "f"), clear_start, (match R with (Ok o, _) => o | _ => mkOut 0 (Ok VNone) 0 [] [] [] end), (snd R).
  split; [reflexivity|]. split; [constructor; reflexivity|]. vm_compute. repeat (split; [reflexivity|]). reflexivity.
Qed.

(** ** C49: events *)
Theorem C49_events L fuel g t s out s' : execute L fuel g t s = (Ok out, s') ->
  o_events out = (if Z.eqb (o_status out) 0 then events_of (s_log s') else []) /\ dv_events (s_drv s') = [].
Proof.
  intros HE. pose proof HE as HE0. apply execute_inv in HE0 as (_ & r & s1 & w & s3 & HP & _ & HF & -> & HO). pose proof (f_equal o_status HO) as HS. cbn [o_status] in HS.
  assert (HV : dv_events (s_drv s3) = []).
  { assert (S4 : tr_started (rt_tracer (s_rt (restore t (dv_writes (s_drv s)) r s1))) = false) by apply restore_off.
    assert (E4 : dv_events (s_drv (restore t (dv_writes (s_drv s)) r s1)) = []) by (destruct r; reflexivity).
    destruct (charge_fee_inv L g t _ _ _ _ _ S4 HF) as (_ & _ & _ & _ & _ & [(_ & -> & _)|(_ & [fee bal x reads _ _ _ _ _ Hd])]); [exact E4|].
    destruct (t_auto t); cbv zeta in Hd; [|rewrite Hd; exact E4]. apply commit_inv in Hd as (d' & _ & ->). exact E4. }
  split; [|rewrite wind_up_drv; exact HV].
  destruct r as [[[v0 w0] e0]|e]; cbn in HS; rewrite HS; cbn [Z.eqb]; [|rewrite HO; reflexivity]. clear HV HF HP HO s1 v0 w0 e0 w.
  destruct (done_inv _ _ _ _ _ _ _ HE HS) as (kw & sa & v & sb & sc & w & sd & E1 & E2 & E3 & HX). cbv zeta in HX.
  set (s4 := restore t _ _ sc) in HX. destruct HX as (HF & HW & ->). cbn [o_events].
  destruct (call_phase_logged L false fuel g t (began s) kw sa _ sb (orm_if_false L (began s)) E1 E2) as [(l & HL & _ & HT & _)]. cbn in HL, HT.
  destruct (auto_same t sb _ _ E3) as (G1 & _). assert (R1 : s_log s4 = s_log sc) by apply restore_same.
  assert (S4 : tr_started (rt_tracer (s_rt s4)) = false) by apply restore_off.
  destruct (charge_fee_inv L g t _ _ _ _ _ S4 HF) as (F1 & _). rewrite HW. change (s_log (wind_up sd)) with (s_log sd). rewrite F1, R1, G1, HL. exact HT.
Qed.
Definition say (n : Z) (k : prog) : prog := PAct (ActEmit (u "Sent") [(u "n", mkParam (Some [TInt]) false)] [(u "n", VInt n)]) (fun _ => k).
Example C49_example :
  match execute (demo [(u "con_m", only_f (u "con_m") (say 1 (say 2 (PRet VNone))))]) 10 cfg0 (call_of "bob" "con_m" "f") (upd_d (set_events [mkEvent None (u "Old") None None [] []]) twice_start) with
  | (Ok out, s') => o_status out = 0 /\ o_events out = [mkEvent (Some (u "con_m")) (u "Sent") (Some (u "bob")) (Some (u "bob")) [] [(u "n", VInt 1)];
                                                       mkEvent (Some (u "con_m")) (u "Sent") (Some (u "bob")) (Some (u "bob")) [] [(u "n", VInt 2)]]
  | _ => False end.
Proof. vm_compute. auto. Qed.

(** ** C43: fee bounds *)
(** The tracer's cost never falls below zero *)
Lemma phases_cost L fuel g t s r s1 : idle s -> phases L fuel g t (began s) r s1 -> 0 <= cost_of s1.
Proof.
  intros HI HP. assert (C0 : cost_of (began s) = 0) by (unfold cost_of; change (tracer_of (began s)) with (rt_tracer (s_rt s)); rewrite (id_tracer _ HI); reflexivity).
  assert (PR : forall s', gmon s' (is_ok (fst (prepare L fuel g t s'))) (snd (prepare L fuel g t s'))).
  { intros s'. apply (prepare_rel L fuel g t gmon).
    - intros x b. apply mmon_gmon, glue_mmon, glue_refl.
    - intros x b y z A B. eapply gmon_trans; eassumption.
    - intros x y b G _ _ _. apply mmon_gmon, glue_mmon, G.
    - intros x b e. constructor; unfold tracer_of, cost_of, bytes_of, tracer_of, s_rt; cbn; try reflexivity; auto.
    - intros x. apply import_gmon. }
  specialize (PR (began s)). assert (CP : forall x, 0 <= cost_of x -> 0 <= cost_of (primed g t x)).
  { intros x Hx. unfold primed, cost_of, tracer_of, s_rt, upd_r, upd_w, set_up. cbn. destruct (metered g t); cbn; [lia|exact Hx]. }
  inversion HP as [e sa Ea X1|kw sa e sb Ea Eb X1|kw sa v sb e sc Ea Eb A Ec X1|kw sa v sb sc Ea Eb Ec X1]; subst; rewrite Ea in PR; cbn [fst snd is_ok] in PR; destruct PR as [_ _ PR _].
  - lia.
  - pose proof (call_gmon L fuel [] (t_contract t) (t_function t) kw (primed g t sa)) as [_ _ H _]. unfold entry_call in Eb. rewrite Eb in H. cbn [snd] in H. specialize (CP sa). lia.
  - pose proof (call_gmon L fuel [] (t_contract t) (t_function t) kw (primed g t sa)) as [_ _ H _]. unfold entry_call in Eb. rewrite Eb in H. cbn [snd] in H. specialize (CP sa).
    unfold on_w, on_drv in Ec. destruct (commit _) as [y d]. injection Ec as _ <-. unfold cost_of, tracer_of, s_rt in *. cbn. lia.
  - pose proof (call_gmon L fuel [] (t_contract t) (t_function t) kw (primed g t sa)) as [_ _ H _]. unfold entry_call in Eb. rewrite Eb in H. cbn [snd] in H. specialize (CP sa).
    destruct (auto_same t sb _ _ Ec) as (_ & G & _). unfold cost_of, tracer_of in *. rewrite G. cbn. lia.
Qed.
Lemma minus_amount bal fee nb nf x : amount bal nb -> constructed fee -> has_units fee nf -> minus_fee bal fee = Ok x -> nb - nf <= MAXU ->
  amount (max0 x) (Z.max 0 (nb - nf)).
Proof.
  intros HB HC HU HX HM.
  assert (K : forall r, agrees r (store (nb - nf)) -> (forall d, r = Ok d -> constructed d) -> (do y <- r; Ok (VDec y)) = Ok x -> amount (max0 x) (Z.max 0 (nb - nf))).
  { intros r HA HD. destruct r as [d|]; [|discriminate]. cbn [bindr]. intros E. injection E as <-. cbn in HA. unfold store in HA.
    destruct (Z.ltb_spec MAXU (nb - nf)); [lia|]. destruct (Z.leb_spec (nb - nf) (- LIMU)); [contradiction|]. cbn [max0].
    assert (HZ : has_units (mkfd false 0 0) 0) by (split; [cbn; lia|reflexivity]). unfold fd_ltb. rewrite (compare_units _ _ _ _ HA HZ).
    destruct (Z.compare_spec (nb - nf) 0).
    - rewrite Z.max_r by lia. split; [apply HD; reflexivity|exact HA].
    - rewrite Z.max_l by lia. cbn. split; [reflexivity|]. unfold LIMU, MAXU. lia.
    - rewrite Z.max_r by lia. split; [apply HD; reflexivity|exact HA]. }
  assert (KI : forall z, nb = z * ONE -> - LIMU < nb <= MAXU -> (do y <- cd_rop_int cd_sub z fee; Ok (VDec y)) = Ok x -> amount (max0 x) (Z.max 0 (nb - nf))).
  { intros z Hz HR. assert (HD : Z.of_nat (ndigits (Z.abs_N z)) <= 4300).
    { destruct (Z.eq_dec z 0) as [->|Hz0]; [vm_compute; discriminate|]. apply ndigits_le_Z; [lia|]. rewrite N2Z.inj_abs_N.
      assert (Z.abs z < 10 ^ 30) by (unfold LIMU, MAXU, ONE in *; lia). eapply Z.lt_le_trans; [eassumption|]. apply Z.pow_le_mono_r; lia. }
    assert (HSt : store (z * ONE) = Ok nb) by (rewrite <- Hz; apply store_range; exact HR).
    destruct (C19_int_operand fee nf z nb HC HU HD HSt) as (_ & _ & _ & _ & H & _). apply (K _ H).
    intros d Hd. unfold cd_rop_int, get_other_int in Hd. destruct (cd_of_int z) as [o|] eqn:EO; [|discriminate Hd]. cbn [bindr] in Hd. exact (c_sub _ _ _ (c_int z o EO) HC Hd). }
  destruct bal; cbn [amount minus_fee] in HB, HX; try contradiction.
  - apply (KI 0); [lia|subst nb; unfold LIMU, MAXU; lia|exact HX].
  - destruct HB as [HB1 HB2]. apply (KI z); assumption.
  - destruct HB as [HB1 HB2]. destruct (C19_arithmetic_exact_rounded_down d fee nb nf HB1 HC HB2 HU) as (_ & H & _). apply (K _ H); [|exact HX].
    intros y Hy. exact (c_sub _ _ _ HB1 HC Hy).
Qed.
Lemma floor_nonneg d : fneg d = false -> 0 <= floor_units d.
Proof.
  intros H. unfold floor_units. rewrite H. destruct (Z.leb_spec (-30) (fexp d)).
  - assert (0 <= 10 ^ (fexp d + 30)) by (apply Z.pow_nonneg; lia). lia.
  - apply Z.div_pos; [lia|]. apply Z.pow_pos_nonneg; lia.
Qed.
(** The balance a transaction ends with, before the fee: after the assignments its contracts made *)
Definition before_fee (L : lang) (s : mach) (ws : list (pystr * pyval)) (k : pystr) : result pyval :=
  fst (get k (set_writes (dupdate (dv_writes (s_drv s)) ws) (s_drv s))).
Theorem C43_fee L fuel g t s out s' : idle s -> metered g t = true -> t_auto t = false -> execute L fuel g t s = (Ok out, s') ->
  (0 <= t_stamps t -> 0 <= o_stamps out <= t_stamps t) /\
  (exists cost, 0 <= cost /\ o_stamps out = Z.min (cost / 1000 + 5) (t_stamps t)) /\
  exists bal x, dget (balance_key g t) (o_writes out) = Some x /\ dget (balance_key g t) (dv_writes (s_drv s')) = Some x /\
    (o_status out = 1 -> reads_as s (balance_key g t) = Ok bal) /\
    (o_status out = 0 -> all_code orm_only L s -> before_fee L s (writes_of L (s_log s')) (balance_key g t) = Ok bal) /\
    (forall n q, amount bal n -> - LIMU < n <= MAXU -> frepr_ok q -> fr_neg q = false -> l_fdiv L (o_stamps out) (t_rate t) = frepr_text q ->
       amount x (Z.max 0 (n - floor_units (frepr_value q)))).
Proof.
  intros HI HM A HE. pose proof HE as HE0. apply execute_inv in HE0 as (_ & r & s1 & w & s3 & HP & _ & HF & HS' & HO). pose proof (phases_cost _ _ _ _ _ _ _ HI HP) as HC0.
  pose proof (f_equal o_status HO) as HSt. pose proof (f_equal o_stamps HO) as HU. pose proof (f_equal o_writes HO) as HW. cbn [o_status o_stamps o_writes] in HSt, HU, HW. rewrite HU, HW.
  set (s2 := restore t (dv_writes (s_drv s)) r s1) in *.
  destruct (restore_same t (dv_writes (s_drv s)) r s1) as (_ & R2 & _). fold s2 in R2.
  assert (CS : cost_of s2 = cost_of s1) by (unfold cost_of, tracer_of; rewrite R2; reflexivity).
  assert (US : stamps_used t s2 = Z.min (cost_of s2 / 1000 + 5) (t_stamps t)).
  { unfold stamps_used. fold (tracer_of s2). fold (cost_of s2). destruct (Z.ltb_spec (t_stamps t) (cost_of s2 / 1000 + 5)); lia. }
  assert (HDiv : 0 <= cost_of s2 / 1000) by (apply Z.div_pos; lia).
  split; [intros; lia|]. split; [exists (cost_of s2); split; [lia|exact US]|].
  destruct (charge_fee_inv L g t _ _ _ _ _ (restore_off t (dv_writes (s_drv s)) r s1) HF) as (_ & _ & _ & _ & _ & [(X & _)|(_ & [fee bal x reads Hr Hfee Hbal Hx Hw Hd])]); [congruence|].
  fold s2 in Hfee, Hbal, Hd. rewrite A in Hd. cbv zeta in Hd. exists bal, (max0 x).
  split; [rewrite Hw; apply dget_dset_same|]. split; [rewrite HS', wind_up_drv, Hd; cbn; apply dget_dset_same|].
  pose proof (phases_pending _ _ _ _ _ _ _ HP A) as (pw & pr & px & pe & HD). cbn in HD. split; [|split].
  - intros S1. rewrite S1 in HSt. destruct r as [p|e]; [discriminate HSt|]. rewrite <- Hbal. unfold reads_as. rewrite !get_result. unfold s2. rewrite restore_drv_err by exact A. rewrite HD.
    apply find_frame; reflexivity.
  - intros S0 HA. destruct (done_inv _ _ _ _ _ _ _ HE S0) as (kw & sa & v & sb & sc & w2 & sd & E1 & E2 & E3 & HX). cbv zeta in HX.
    assert (HP2 : phases L fuel g t (began s) (Ok (v, dv_txn (s_drv sb), dv_events (s_drv sb))) sc) by (eapply ph_done; eassumption).
    assert (HA' : all_code (orm_if true) L (began s)).
    { assert (HMo : forall md, module_all orm_only md -> module_all (orm_if true) md).
      { intros md [H1 H2 H3]. constructor; intros; (eapply each_imp; [intros p Hp _; exact Hp|eauto]). }
      destruct HA as [[H1 H2] H3]. split; [split|]; [intros b md Hb; exact (HMo _ (H1 b md Hb))|intros b md Hb; exact (HMo _ (H2 b md Hb))|]. intros n md Hn. apply HMo. exact (H3 n md Hn). }
    destruct (call_phase_logged L true fuel g t (began s) kw sa _ sb HA' E1 E2) as [(l & HL & _ & _ & HWr)]. specialize (HWr eq_refl). cbn in HL.
    set (s4 := restore t (dv_writes (s_drv s)) _ sc) in HX. destruct HX as (HF2 & HS2 & _). destruct (auto_same t sb _ _ E3) as (G1 & _ & _ & _ & _ & G2). specialize (G2 A).
    assert (S4 : tr_started (rt_tracer (s_rt s4)) = false) by apply restore_off. destruct (charge_fee_inv L g t _ _ _ _ _ S4 HF2) as (F1 & _).
    assert (LG : s_log s' = l). { rewrite HS2. change (s_log (wind_up sd)) with (s_log sd). rewrite F1. assert (R4 : s_log s4 = s_log sc) by apply restore_same. rewrite R4, G1, HL. reflexivity. }
    rewrite LG. unfold before_fee. rewrite get_result.
    (* the two inversions describe the same run *)
    assert (HB : s_drv s2 = set_txn [] (set_events [] (s_drv sb))).
    { inversion HP as [e xa Ea X1|kw' xa e xb Ea Eb X1|kw' xa v' xb e xc Ea Eb A' Ec X1|kw' xa v' xb xc Ea Eb Ec X1]; subst r; [rewrite S0 in HSt; discriminate..|].
      rewrite E1 in Ea. injection Ea as <- <-. rewrite E2 in Eb. injection Eb as <- <-. rewrite E3 in Ec. injection Ec as <-. unfold s2. rewrite restore_drv_ok, G2. reflexivity. }
    rewrite <- Hbal. unfold reads_as. rewrite get_result, HB.
    destruct (phases_pending _ _ _ _ _ _ _ HP2 A) as (pw' & pr' & px' & pe' & HD'). rewrite G2 in HD'. rewrite HD' in HWr |- *. cbn in HWr. subst pw'. apply find_frame; reflexivity.
  - intros n q HA HR HQ HN HT. rewrite HT in Hfee. pose proof (C22_floats q HQ (or_introl HN)) as HF22. rewrite Hfee in HF22.
    assert (HN0 : fneg (frepr_value q) = false) by exact HN. pose proof (floor_nonneg _ HN0) as HFl.
    unfold store in HF22. destruct (Z.ltb_spec MAXU (floor_units (frepr_value q))).
    + cbn in HF22. pose proof (minus_amount bal fee n MAXU x HA (c_float _ _ Hfee) HF22 Hx) as H1. assert (n - MAXU <= MAXU) by (unfold MAXU in *; lia). specialize (H1 H0).
      rewrite Z.max_l in H1 by lia. rewrite Z.max_l by lia. exact H1.
    + destruct (Z.leb_spec (floor_units (frepr_value q)) (- LIMU)); [unfold LIMU in *; lia|]. cbn in HF22.
      apply (minus_amount bal fee n _ x HA (c_float _ _ Hfee) HF22 Hx). lia.
Qed.
(** The example of C48: 5 stamps at 20 stamps per unit cost 0.25 *)
Definition quarter : frepr := mkfrepr false (u "0") (u "25") None.
Example C43_example : match execute twice_lang 10 cfg0 (call_of "bob" "con_m" "f") twice_start with
  | (Ok out, s') => idle twice_start /\ o_status out = 0 /\ o_stamps out = 5 /\ l_fdiv twice_lang (o_stamps out) 20 = frepr_text quarter /\ floor_units (frepr_value quarter) = 25 * 10 ^ 28 /\
      dget (balance_key cfg0 (call_of "bob" "con_m" "f")) (o_writes out) = Some (VDec (mkfd false 9975 (-2)))
  | _ => False end.
Proof. vm_compute. split; [constructor; reflexivity|]. repeat (split; [reflexivity|]). reflexivity. Qed.

(** ** C44: the fee is paid in full *)
(** It is when the balance left by the contract still covers it *)
Theorem C44_paid_in_full_partial L fuel g t s out s' : idle s -> metered g t = true -> t_auto t = false -> execute L fuel g t s = (Ok out, s') ->
  exists bal x, dget (balance_key g t) (o_writes out) = Some x /\ dget (balance_key g t) (dv_writes (s_drv s')) = Some x /\
    (o_status out = 1 -> reads_as s (balance_key g t) = Ok bal) /\
    (o_status out = 0 -> all_code orm_only L s -> before_fee L s (writes_of L (s_log s')) (balance_key g t) = Ok bal) /\
    (forall n q, amount bal n -> - LIMU < n <= MAXU -> frepr_ok q -> fr_neg q = false -> l_fdiv L (o_stamps out) (t_rate t) = frepr_text q ->
       floor_units (frepr_value q) <= n -> amount x (n - floor_units (frepr_value q))).
Proof.
  intros HI HM A HE. destruct (C43_fee _ _ _ _ _ _ _ HI HM A HE) as (_ & _ & bal & x & H1 & H2 & H3 & H4 & H5). exists bal, x.
  repeat (split; [assumption|]). intros n q Q1 Q2 Q3 Q4 Q5 Q6. specialize (H5 n q Q1 Q2 Q3 Q4 Q5). rewrite Z.max_r in H5 by lia. exact H5.
Qed.
(** A contract that spends the whole balance first pays nothing: 5 stamps are used, the balance is 0 before and after the fee *)
Definition spend_lang := demo [(u "currency", only_f (u "currency") (put_h "currency" "balances" "bob" (VInt 0) (put_h "currency" "balances" "eve" (VInt 100) (PRet VNone))))].
Definition spend_start := idle_mach (deployed (u "currency") (u "currency") VNone ++ funded "bob" 100).
Theorem C44_refuted : exists L g t s out s', idle s /\ metered g t = true /\ t_auto t = false /\ execute L 10 g t s = (Ok out, s') /\ o_status out = 0 /\ o_stamps out = 6 /\
  reads_as s (balance_key g t) = Ok (VInt 100) /\ before_fee L s (writes_of L (s_log s')) (balance_key g t) = Ok (VInt 0) /\ reads_as s' (balance_key g t) = Ok (VInt 0) /\
  reads_as s' (u "currency.balances:eve") = Ok (VInt 100).
Proof.
  set (R := execute spend_lang 10 cfg0 (call_of "bob" "currency" "f") spend_start).
  exists spend_lang, cfg0, (call_of "bob" "currency" "f"), spend_start, (match R with (Ok o, _) => o | _ => mkOut 0 (Ok VNone) 0 [] [] [] end), (snd R).
  split; [constructor; reflexivity|]. vm_compute. repeat (split; [reflexivity|]). reflexivity.
Qed.
(** ... and an underfunded sender is charged although the transaction was not admitted *)
Definition poor_start := idle_mach (deployed (u "con_m") (u "con_m") VNone ++ [(u "currency.balances:bob", VInt 1)]).
Theorem C44_not_admitted_charged_refuted : exists L g t s out s', idle s /\ metered g t = true /\ execute L 10 g t s = (Ok out, s') /\ o_status out = 1 /\ s_log s' = [] /\
  o_result out = Err EAssertion /\ reads_as s (balance_key g t) = Ok (VInt 1) /\ reads_as s' (balance_key g t) = Ok (VDec (mkfd false 75 (-2))).
Proof.
  set (R := execute twice_lang 10 cfg0 (call_of "bob" "con_m" "f") poor_start).
  exists twice_lang, cfg0, (call_of "bob" "con_m" "f"), poor_start, (match R with (Ok o, _) => o | _ => mkOut 0 (Ok VNone) 0 [] [] [] end), (snd R).
  split; [constructor; reflexivity|]. vm_compute. repeat (split; [reflexivity|]). reflexivity.
Qed.

(** ** C47: auto-commit *)
(** A failed auto-commit transaction leaves no pending write at all, so every earlier uncommitted effect is lost:
    afterwards every key reads as a new Driver would read it *)
Lemma failed_auto L fuel g t s out s' : t_auto t = true -> execute L fuel g t s = (Ok out, s') -> o_status out = 1 ->
  dv_writes (s_drv s') = [] /\ dv_cache (s_drv s') = [] /\ dv_deltas (s_drv s') = [].
Proof.
  intros A HE HS. apply execute_inv in HE as (_ & r & s1 & w & s3 & HP & _ & HF & -> & ->). cbn [o_status] in HS. destruct r as [p|e]; [discriminate HS|]. clear HS.
  rewrite wind_up_drv. destruct (charge_fee_inv L g t _ _ _ _ _ (restore_off t (dv_writes (s_drv s)) (Err e) s1) HF) as (_ & _ & _ & _ & _ & HC).
  assert (HR : s_drv (restore t (dv_writes (s_drv s)) (Err e) s1) = flush_cache (s_drv s1)) by (unfold restore, revert; rewrite A; reflexivity).
  destruct HC as [(_ & -> & _)|(_ & [fee bal x reads _ _ _ _ _ Hd])]; [rewrite HR; repeat split|].
  rewrite A, HR in Hd. cbv zeta in Hd. apply commit_inv in Hd as (d' & _ & ->). repeat split.
Qed.
Theorem C47_pending_lost_refuted L fuel g t s out s' : t_auto t = true -> execute L fuel g t s = (Ok out, s') -> o_status out = 1 ->
  dv_bypass (s_drv s') = false -> forall k, reads_as s' k = fresh_read (dv_disk (s_drv s')) k.
Proof.
  intros A HE HS HB k. destruct (failed_auto _ _ _ _ _ _ _ A HE HS) as (H1 & H2 & H3). unfold reads_as. rewrite get_result, fresh_read_value.
  unfold find, pget. rewrite HB, H1, H2. reflexivity.
Qed.
Definition auto_of (sender contract fn : string) : txn := mkTx (u sender) (u contract) (u fn) [] [] true 1000 20 (Some true).
Definition auto_disk : disk := snd (commit_all (deployed (u "con_m") (u "con_m") VNone ++ funded "bob" 100 ++ [(u "con_m.x", VInt 1)]) []).
Definition auto_start (ws : dict pyval) : mach := mkS (mkW (set_writes ws (driver0 false auto_disk)) rt0) [] [] false [].
(** con_m.x was set to 2 by an earlier, not yet committed transaction *)
Theorem C47_refuted : exists L g t s out s', idle s /\ t_auto t = true /\ execute L 10 g t s = (Ok out, s') /\ o_status out = 1 /\
  reads_as s (u "con_m.x") = Ok (VInt 2) /\ reads_as s' (u "con_m.x") = Ok (VInt 1) /\ dv_writes (s_drv s) = [(u "con_m.x", VInt 2)] /\ dv_writes (s_drv s') = [].
Proof.
  set (R := execute (fail_lang EAssertion) 10 cfg0 (auto_of "bob" "con_m" "f") (auto_start [(u "con_m.x", VInt 2)])).
  exists (fail_lang EAssertion), cfg0, (auto_of "bob" "con_m" "f"), (auto_start [(u "con_m.x", VInt 2)]), (match R with (Ok o, _) => o | _ => mkOut 0 (Ok VNone) 0 [] [] [] end), (snd R).
  split; [constructor; reflexivity|]. vm_compute. repeat (split; [reflexivity|]). reflexivity.
Qed.
(** What is committed survives, when the code writes only storable keys: nothing but the fee entry changes for a new Driver *)
Definition committable (v : driver) : Prop := Forall (fun kv => key_writable (fst kv) /\ forall e, encode (snd kv) <> Err e) (dv_writes v).
Definition keeps (v v' : driver) : Prop := dv_disk v' = dv_disk v /\ (committable v -> committable v').
Lemma Forall_dset {V} (P : pystr * V -> Prop) k x (d : dict V) : Forall P d -> P (k, x) -> Forall P (dset k x d).
Proof.
  intros H HP. induction H as [|[j y] d Hj Hd IH]; cbn [dset]; [constructor; [exact HP|constructor]|].
  destruct (str_eqb_spec k j); [subst; constructor; assumption|constructor; assumption].
Qed.
Lemma keeps_set k x y (b : bool) v : key_writable k -> coerce x = Ok y -> (forall e, encode x <> Err e) ->
  keeps v (set_txn (if b then dset k y (dv_txn v) else dv_txn v) (set_writes (dset k y (dv_writes v)) v)).
Proof.
  intros HK HC HE. split; [destruct b; reflexivity|]. intros H. unfold committable in *. assert (HW : Forall (fun kv => key_writable (fst kv) /\ forall e, encode (snd kv) <> Err e) (dset k y (dv_writes v))); [|destruct b; exact HW].
  apply Forall_dset; [exact H|]. split; [exact HK|]. cbn [snd]. destruct x; cbn [coerce] in HC; try (injection HC as <-; exact HE).
  - destruct (cd_of_str repr) as [d|] eqn:E; [|discriminate]. injection HC as <-. destruct (encode_decode (VDec d) (c_str _ _ E)) as (tx & ? & -> & _). discriminate.
  - destruct (cd_of_str (str_of_dec d)) as [d'|] eqn:E; [|discriminate]. injection HC as <-. destruct (encode_decode (VDec d') (c_str _ _ E)) as (tx & ? & -> & _). discriminate.
Qed.
Lemma phases_keeps L fuel g t s r s' : all_code (sets_only L (fun k _ => key_writable k)) L s -> committable (s_drv s) -> phases L fuel g t s r s' ->
  match r with Err _ => dv_disk (s_drv s') = dv_disk (s_drv s) | Ok _ => True end.
Proof.
  intros HA HC HP. pose (PS := fun (k : pystr) (b : bool) => key_writable k).
  assert (D1 : forall v, keeps v v) by (intros v; split; auto).
  assert (D2 : forall a b c, keeps a b -> keeps b c -> keeps a c) by (intros a b c [X1 X2] [Y1 Y2]; split; [congruence|auto]).
  assert (D3 : forall x v, keeps v (set_reads x v)) by (intros; split; auto).
  assert (D5 : forall e v, keeps v (set_events (dv_events v ++ [e]) v)) by (intros; split; auto).
  assert (D4 : forall k x y (b : bool) v, PS k b -> coerce x = Ok y -> (forall e, encode x <> Err e) -> keeps v (set_txn (if b then dset k y (dv_txn v) else dv_txn v) (set_writes (dset k y (dv_writes v)) v))) by (intros k x y b v A1 A2 A3; exact (keeps_set k x y b v A1 A2 A3)).
  pose proof (prepare_D L PS keeps D1 D2 D3 D4 D5 fuel g t s HA) as [KP HA1].
  assert (KC : forall kw sa, prepare L fuel g t s = (Ok kw, sa) -> keeps (s_drv s) (s_drv (snd (entry_call L fuel t kw (primed g t sa))))).
  { intros kw sa Ea. rewrite Ea in KP, HA1. cbn [snd] in *. pose proof (call_D L PS keeps D1 D2 D3 D4 D5 fuel [] (t_contract t) (t_function t) kw (primed g t sa) HA1) as [H2 _].
    exact (D2 _ _ _ KP H2). }
  inversion HP as [e sa Ea X1|kw sa e sb Ea Eb X1|kw sa v sb e sc Ea Eb A Ec X1|kw sa v sb sc Ea Eb Ec X1]; subst.
  - rewrite Ea in KP. apply KP.
  - specialize (KC _ _ Ea). rewrite Eb in KC. apply KC.
  - exfalso. specialize (KC _ _ Ea). rewrite Eb in KC. cbn [snd] in KC. destruct KC as [_ KC]. specialize (KC HC).
    destruct (commit_all_ok _ (dv_disk (s_drv sb)) KC) as (d' & HX). unfold on_w, on_drv, commit in Ec. cbn [s_w stopped set_restricted upd_r upd_w set_w w_drv upd_rt] in Ec.
    rewrite bind_eq in Ec. cbn [gets] in Ec. rewrite bind_eq in Ec. unfold on_disk in Ec. fold (s_drv sb) in Ec. rewrite HX in Ec. discriminate Ec.
  - exact I.
Qed.
Theorem C47_committed_survives_partial L fuel g t s out s' : all_code (sets_only L (fun k _ => key_writable k)) L s -> dv_writes (s_drv s) = [] ->
  t_auto t = true -> execute L fuel g t s = (Ok out, s') -> o_status out = 1 ->
  (metered g t = false -> dv_disk (s_drv s') = dv_disk (s_drv s)) /\
  (forall k, key_ok k -> same_place k (balance_key g t) = false -> fresh_read (dv_disk (s_drv s')) k = fresh_read (dv_disk (s_drv s)) k) /\
  (dv_bypass (s_drv s') = false -> forall k, key_ok k -> same_place k (balance_key g t) = false -> reads_as s' k = fresh_read (dv_disk (s_drv s)) k).
Proof.
  intros HA HW A HE HS. assert (HG : (metered g t = false -> dv_disk (s_drv s') = dv_disk (s_drv s)) /\
    (forall k, key_ok k -> same_place k (balance_key g t) = false -> fresh_read (dv_disk (s_drv s')) k = fresh_read (dv_disk (s_drv s)) k)).
  2:{ destruct HG as [G1 G2]. split; [exact G1|]. split; [exact G2|]. intros HB k HK HP. rewrite (C47_pending_lost_refuted _ _ _ _ _ _ _ A HE HS HB). apply G2; assumption. }
  apply execute_inv in HE as (_ & r & s1 & w & s3 & HP & _ & HF & -> & ->). cbn [o_status] in HS. destruct r as [p|e]; [discriminate HS|]. clear HS.
  assert (HD : dv_disk (s_drv s1) = dv_disk (s_drv s)).
  { refine (phases_keeps L fuel g t (began s) (Err e) s1 HA _ HP). unfold committable. change (dv_writes (s_drv (began s))) with (dv_writes (s_drv s)). rewrite HW. constructor. }
  rewrite wind_up_drv. destruct (charge_fee_inv L g t _ _ _ _ _ (restore_off t (dv_writes (s_drv s)) (Err e) s1) HF) as (_ & _ & _ & _ & _ & HC).
  assert (HR : s_drv (restore t (dv_writes (s_drv s)) (Err e) s1) = flush_cache (s_drv s1)) by (unfold restore, revert; rewrite A; reflexivity).
  destruct HC as [(HM & -> & _)|(HM & [fee bal x reads _ _ _ _ _ Hd])]; [rewrite HR; cbn; rewrite HD; split; intros; reflexivity|].
  split; [congruence|]. rewrite A, HR in Hd. cbv zeta in Hd. intros k HK HPl. destruct (C03_commit_durable _ _ Hd) as (HDu & _). rewrite HDu by exact HK.
  cbn. rewrite HPl, HD. reflexivity.
Qed.
Example C47_example : all_code (sets_only (fail_lang EAssertion) (fun k _ => key_writable k)) (fail_lang EAssertion) (auto_start []) /\
  match execute (fail_lang EAssertion) 10 cfg0 (auto_of "bob" "con_m" "f") (auto_start []) with
  | (Ok out, s') => o_status out = 1 /\ reads_as s' (u "con_m.x") = Ok (VInt 1) /\ reads_as s' (u "currency.balances:bob") = Ok (VDec (mkfd false 9975 (-2)))
  | _ => False end.
Proof.
  split; [|vm_compute; auto]. assert (HX : all_code (sets_only (fail_lang EAssertion) (fun k _ => key_writable k)) (fail_lang EAssertion) (idle_mach [])).
  { apply demo_all; cbn; try exact I. repeat split; vm_compute; discriminate. }
  exact HX.
Qed.
Print Assumptions C45_failed_transaction.
Print Assumptions C45_when_it_raises.
Print Assumptions C45_base_exception_refuted.
Print Assumptions C45_fee_error_refuted.
Print Assumptions C46_other_driver_writes_refuted.
Print Assumptions C46_refuted.
Print Assumptions C46_failed_transaction_partial.
Print Assumptions C51_refused.
Print Assumptions C48_reported.
Print Assumptions C48_exactly_partial.
Print Assumptions C48_clear_refuted.
Print Assumptions C49_events.
Print Assumptions C43_fee.
Print Assumptions C44_paid_in_full_partial.
Print Assumptions C44_refuted.
Print Assumptions C44_not_admitted_charged_refuted.
Print Assumptions C47_pending_lost_refuted.
Print Assumptions C47_refuted.
Print Assumptions C47_committed_survives_partial.
