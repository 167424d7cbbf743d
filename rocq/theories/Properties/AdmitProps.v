(** * C94: the admission check *)
From Verif Require Import Model.Base Model.State Model.Dec Model.Time Model.Value Model.Encoder Model.Hdf5 Model.Runtime Model.Driver Model.Orm Model.Exec Model.Executor.
From Verif Require Import Spec.DecSpec Spec.OrmSpec Spec.ExecSpec Proofs.BaseFacts Proofs.DecFacts Proofs.DecOps Proofs.DriverFacts Proofs.OrmFacts Proofs.ExecFacts Proofs.ExecRel Proofs.MeterFacts Proofs.TxFacts Proofs.PhaseRel.
From Verif Require Import Properties.DecProps Properties.Demo Properties.TxProps Properties.ExecProps.
From Coq Require Import Lia.
Local Open Scope Z_scope.

(** An account of n units (of 10^-30) pays for [stamps] stamps at [rate] stamps per unit of currency *)
Definition affords (n rate stamps : Z) : Prop := stamps * ONE <= n * rate.
Lemma amount_value b n : amount b n -> exists b', balance_value b = Ok b' /\ amount b' n /\ b' <> VNone.
Proof.
  destruct b; cbn [amount balance_value]; try contradiction; intros H.
  - exists (VInt 0). split; [reflexivity|]. split; [|discriminate]. subst n. cbn. unfold LIMU, MAXU. lia.
  - exists (VInt z). split; [reflexivity|]. split; [exact H|discriminate].
  - exists (VDec d). split; [reflexivity|]. split; [exact H|discriminate].
Qed.
Lemma enough_iff b n rate stamps : amount b n -> b <> VNone -> 0 <= n -> 0 < rate <= 10 ^ 29 -> 0 <= stamps <= 10 ^ 29 ->
  exists r, enough b rate stamps = Ok r /\ (r = true <-> affords n rate stamps).
Proof.
  intros HA HN H0 HR HS. unfold affords. destruct b; cbn [amount enough] in *; try contradiction.
  - exists (stamps <=? z * rate). split; [reflexivity|]. rewrite Z.leb_le. destruct HA as [-> _]. unfold ONE. split; nia.
  - destruct HA as [HC HU].
    assert (HD : Z.of_nat (ndigits (Z.abs_N rate)) <= 4300).
    { apply ndigits_le_Z; [lia|]. rewrite N2Z.inj_abs_N. assert (10 ^ 29 < 10 ^ 4300) by (apply Z.pow_lt_mono_r; lia). lia. }
    assert (HSt : store (rate * ONE) = Ok (rate * ONE)) by (apply store_range; unfold LIMU, MAXU, ONE; lia).
    destruct (C19_int_operand d n rate _ HC HU HD HSt) as (_ & _ & HM & _).
    assert (E : n * (rate * ONE) / ONE = n * rate) by (rewrite Z.mul_assoc; apply Z.div_mul; unfold ONE; lia). rewrite E in HM.
    assert (HNN : 0 <= n * rate) by nia. unfold store in HM. destruct (cd_op_int cd_mul d rate) as [x|e] eqn:EX.
    2:{ destruct (Z.ltb_spec MAXU (n * rate)); [contradiction|]. destruct (Z.leb_spec (n * rate) (- LIMU)); [unfold LIMU in *; lia|contradiction]. }
    cbn [bindr]. assert (HX : constructed x).
    { unfold cd_op_int, get_other_int in EX. destruct (cd_of_int rate) as [o|] eqn:EO; [|discriminate EX]. cbn [bindr] in EX. exact (c_mul _ _ _ HC (c_int _ _ EO) EX). }
    assert (HB : exists m, has_units x m /\ (stamps * ONE <= m <-> stamps * ONE <= n * rate)).
    { destruct (Z.ltb_spec MAXU (n * rate)).
      - exists MAXU. split; [exact HM|]. unfold MAXU, ONE in *. split; lia.
      - destruct (Z.leb_spec (n * rate) (- LIMU)); [unfold LIMU in *; lia|]. exists (n * rate). split; [exact HM|reflexivity]. }
    destruct HB as (m & Hm & HE). destruct (C23_order_int x m stamps HX Hm) as (_ & _ & _ & _ & HG); [lia|].
    rewrite HG. exists (stamps * ONE <=? m). split; [reflexivity|]. rewrite Z.leb_le. exact HE.
Qed.
(** For balances, stamps and rates in the range of contract decimals the check passes exactly if the account affords the stamps. *)
Theorem C94_check_partial g t s b n : metered g t = true -> g_bypass_balance g = false -> reads_as s (balance_key g t) = Ok b -> amount b n -> 0 <= n ->
  0 < t_rate t <= 10 ^ 29 -> 0 <= t_stamps t <= 10 ^ 29 ->
  (affords n (t_rate t) (t_stamps t) -> fst (admission g t s) = Ok tt) /\ (~ affords n (t_rate t) (t_stamps t) -> fst (admission g t s) = Err EAssertion).
Proof.
  intros HM HB HG HA H0 HR HS. unfold admission. rewrite HM, HB. rewrite bind_eq, bind_eq.
  assert (EG : fst (on_w (on_drv (get (balance_key g t))) s) = Ok b). { unfold on_w, on_drv. unfold reads_as, s_drv in HG. destruct (get (balance_key g t) (w_drv (s_w s))). exact HG. }
  destruct (on_w (on_drv (get (balance_key g t))) s) as [[b0|e] s1]; cbn [fst] in EG; [|discriminate EG]. injection EG as ->.
  destruct (amount_value b n HA) as (b' & E1 & E2 & E3). cbn [lift]. rewrite E1. rewrite bind_eq. cbn [lift].
  destruct (enough_iff b' n (t_rate t) (t_stamps t) E2 E3 H0 HR HS) as (r & ER & HI). rewrite ER. unfold check.
  destruct r; cbn [fst ret raise]; split; intros HH; try reflexivity; exfalso.
  - apply HH, HI. reflexivity.
  - apply HI in HH. discriminate HH.
Qed.
(** A transaction that is not admitted runs nothing and fails. *)
Theorem C94_refused_partial L fuel g t s b n out s' : metered g t = true -> g_bypass_balance g = false -> reads_as s (balance_key g t) = Ok b -> amount b n -> 0 <= n ->
  0 < t_rate t <= 10 ^ 29 -> 0 <= t_stamps t <= 10 ^ 29 -> ~ affords n (t_rate t) (t_stamps t) -> execute L fuel g t s = (Ok out, s') ->
  o_status out = 1 /\ o_result out = Err EAssertion /\ o_events out = [] /\ s_log s' = [] /\ (forall k, k <> balance_key g t -> dget k (o_writes out) = None).
Proof.
  intros HM HB HG HA H0 HR HS HN HE. apply execute_inv in HE as (_ & r & s1 & w & s3 & HP & _ & HF & -> & ->). cbn [o_status o_result o_events o_writes].
  assert (HAd : fst (admission g t (began s)) = Err EAssertion).
  { refine (proj2 (C94_check_partial g t (began s) b n HM HB _ HA H0 HR HS) HN). rewrite began_reads. exact HG. }
  pose proof (admission_log g t (began s)) as HL. change (s_log (began s)) with (@nil obs) in HL.
  assert (HPr : prepare L fuel g t (began s) = (Err EAssertion, snd (admission g t (began s)))).
  { unfold prepare. rewrite bind_eq. destruct (admission g t (began s)) as [[[]|e] x]; cbn [fst] in HAd; [discriminate HAd|]. injection HAd as ->. reflexivity. }
  assert (HR1 : r = Err EAssertion /\ s1 = snd (admission g t (began s))).
  { inversion HP as [e sa Ea X1|kw sa e sb Ea Eb X1|kw sa v sb e sc Ea Eb A' Ec X1|kw sa v sb sc Ea Eb Ec X1]; subst; rewrite HPr in Ea; try discriminate Ea. injection Ea as <- <-. auto. }
  destruct HR1 as [-> ->]. repeat (split; [reflexivity|]).
  destruct (charge_fee_inv L g t _ _ _ _ _ (restore_off t (dv_writes (s_drv s)) (Err EAssertion) (snd (admission g t (began s)))) HF) as (_ & _ & _ & _ & _ & HC).
  split.
  - pose proof (fee_same L g t (stamps_used t (restore t (dv_writes (s_drv s)) (Err EAssertion) (snd (admission g t (began s))))) (written (Err EAssertion)) (restore t (dv_writes (s_drv s)) (Err EAssertion) (snd (admission g t (began s))))) as HS3.
    rewrite HF in HS3. cbn [snd] in HS3. change (s_log (wind_up s3)) with (s_log s3). rewrite (proj1 HS3). rewrite (proj1 (restore_same t _ _ _)). exact HL.
  - intros k HK. destruct HC as [(X & _)|(_ & [fee bal x reads Hr Hfee Hbal Hx Hw Hd])]; [congruence|]. rewrite Hw. cbn [written]. rewrite dget_dset. destruct (str_eqb_spec k (balance_key g t)); [contradiction|reflexivity].
Qed.
(** Outside that range it is not: a decimal account of 10^29 at rate 20 is admitted with 10^35 stamps. *)
Definition rich : fd := match cd_of_int (10 ^ 29) with Ok d => d | Err _ => mkfd false 0 0 end.
Theorem C94_range_refuted : exists g t s b n, metered g t = true /\ g_bypass_balance g = false /\ reads_as s (balance_key g t) = Ok b /\ amount b n /\ 0 <= n /\
  t_rate t = 20 /\ ~ affords n (t_rate t) (t_stamps t) /\ fst (admission g t s) = Ok tt.
Proof.
  exists cfg0, (mkTx (u "bob") (u "con_m") (u "f") [] [] false (10 ^ 35) 20 (Some true)), (idle_mach [(u "currency.balances:bob", VDec rich)]), (VDec rich), MAXU.
  repeat (split; [reflexivity|]). split; [split; [exact (c_int (10 ^ 29) rich eq_refl)|vm_compute; split; [discriminate|reflexivity]]|]. split; [unfold MAXU; lia|]. split; [reflexivity|].
  split; [unfold affords; vm_compute; intros H; apply H; reflexivity|]. vm_compute. reflexivity.
Qed.
Example C94_example : let t := call_of "bob" "con_m" "f" in
  let at_balance z := idle_mach [(u "currency.balances:bob", VInt z)] in
  affords (50 * ONE) 20 1000 /\ fst (admission cfg0 t (at_balance 50)) = Ok tt /\ ~ affords (49 * ONE) 20 1000 /\ fst (admission cfg0 t (at_balance 49)) = Err EAssertion.
Proof. cbn [affords]. repeat split; try (vm_compute; reflexivity); unfold affords, ONE; lia. Qed.

(** Whether a transaction is metered: by its own argument if there is one, whatever the executor's setting; else by the setting *)
Definition with_metering (b : bool) (g : cfg) : cfg := mkCfg b (g_currency g) (g_balances g) (g_bypass_privates g) (g_bypass_balance g).
Definition with_meter (b : bool) (t : txn) : txn := mkTx (t_sender t) (t_contract t) (t_function t) (t_kwargs t) (t_env t) (t_auto t) (t_stamps t) (t_rate t) (Some b).
Theorem C94_who_is_metered L fuel g t s :
  (forall b, execute L fuel (with_metering b g) (with_meter true t) s = execute L fuel g (with_meter true t) s /\
             execute L fuel (with_metering b g) (with_meter false t) s = execute L fuel g (with_meter false t) s) /\
  (t_meter t = None -> execute L fuel g t s = execute L fuel g (with_meter (g_metering g) t) s).
Proof.
  split; [intros b; split; destruct g, t; reflexivity|]. intros N. destruct t as [a0 a1 a2 a3 a4 a5 a6 a7 m]. cbn [t_meter] in N. subst m. destruct g. reflexivity.
Qed.
