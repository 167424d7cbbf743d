(** * C40-C42: metering *)
From Verif Require Import Model.Base Model.State Model.Dec Model.Time Model.Value Model.Encoder Model.Hdf5 Model.Runtime Model.Driver Model.Orm Model.Exec Model.Executor.
From Verif Require Import Spec.EncSpec Spec.OrmSpec Spec.ExecSpec Proofs.BaseFacts Proofs.DriverFacts Proofs.OrmFacts Proofs.ExecFacts Proofs.ExecRel Proofs.MeterFacts Proofs.TxFacts.
From Verif Require Import Properties.DriverProps Properties.OrmProps Properties.Demo.
From Coq Require Import Lia.
Open Scope Z_scope.

(** ** C40: cost *)
(** A traced line raises as soon as one limit is passed, and then tracing is off *)
Theorem C40_line_raises e s : tr_started (tracer_of s) = true ->
  (800000 < tr_calls (tracer_of s) + 1 \/
   le_contract e = true /\ (tr_supplied (tracer_of s) < cost_of s + cu_cost (le_opcode e) \/ 6500000 < cost_of s + cu_cost (le_opcode e))) ->
  fst (line e s) = Err EAssertion /\ tr_started (tracer_of (snd (line e s))) = false.
Proof.
  intros S0 H. unfold line, on_w, on_rt, on_tracer, on_line, tracer_of, cost_of, tracer_of, s_rt in *. cbn [s_w note set_log] in *. rewrite S0.
  unfold trace_line. cbn [tr_calls tr_cost tr_supplied tr_last_mem tr_total_mem tr_started].
  destruct (Z.ltb_spec MAX_CALLS (tr_calls (rt_tracer (w_rt (s_w s))) + 1)) as [|Hc]; [split; reflexivity|].
  destruct H as [H|[HC H]]; [unfold MAX_CALLS in Hc; lia|]. rewrite HC. cbn [negb].
  set (last := if Z.eqb _ 0 then _ else _). set (total := if Z.ltb last _ then _ else _). destruct (Z.ltb MAX_MEM total); [split; reflexivity|].
  unfold charge. cbn [tr_cost tr_supplied]. unfold MAX_STAMPS.
  destruct (Z.ltb_spec (tr_supplied (rt_tracer (w_rt (s_w s)))) (tr_cost (rt_tracer (w_rt (s_w s))) + cu_cost (le_opcode e))); [split; reflexivity|].
  destruct (Z.ltb_spec 6500000 (tr_cost (rt_tracer (w_rt (s_w s))) + cu_cost (le_opcode e))); [split; reflexivity|]. lia.
Qed.
(** A line within all limits (memory included) does not raise, and is counted and charged *)
Theorem C40_line_charged e s : tr_started (tracer_of s) = true -> fst (line e s) = Ok tt ->
  cost_of (snd (line e s)) = cost_of s + (if le_contract e then cu_cost (le_opcode e) else 0) /\
  tr_calls (tracer_of (snd (line e s))) = tr_calls (tracer_of s) + 1 /\ tr_started (tracer_of (snd (line e s))) = true.
Proof.
  intros S0 H. unfold line, on_w, on_rt, on_tracer, cost_of, tracer_of, s_rt in *. cbn [s_w note set_log] in *.
  destruct (on_line_tmon e (rt_tracer (w_rt (s_w s)))) as [_ _ _ _ HM _]. destruct (on_line e (rt_tracer (w_rt (s_w s)))) as [x t']. cbn in *. subst x.
  destruct (HM S0 eq_refl) as (A & B & C & _). split; [|split]; assumption.
Qed.
(** A write to the state raises as soon as a limit is passed *)
Theorem C40_write_raises k v b w kl vl : tr_started (rt_tracer (w_rt w)) = true -> encode_kv_len k v = Ok (kl, vl) ->
  tr_supplied (rt_tracer (w_rt w)) < tr_cost (rt_tracer (w_rt w)) + 25 * (Z.of_nat kl + Z.of_nat vl) \/
  6500000 < tr_cost (rt_tracer (w_rt w)) + 25 * (Z.of_nat kl + Z.of_nat vl) ->
  fst (set k v b w) = Err EAssertion /\ w_drv (snd (set k v b w)) = w_drv w.
Proof.
  intros S0 HE H. remember (set k v b w) as R eqn:ER. unfold set in ER. rewrite bind_eq, HE in ER. cbn [lift] in ER. rewrite bind_eq in ER. unfold on_rt in ER.
  destruct (deduct_spec kl vl (w_rt w) S0) as (_ & HI & _). unfold MAX_STAMPS, WRITE_COST_PER_BYTE in HI.
  assert (EA : forall x, fst (deduct_write kl vl (w_rt w)) = Err x -> x = EAssertion).
  { intros x. unfold deduct_write. rewrite S0. cbv zeta. destruct (Z.ltb _ WRITE_MAX); [|intros E; injection E as <-; reflexivity].
    unfold on_tracer, add_cost, charge. destruct (_ || _)%bool; [intros E; injection E as <-; reflexivity|discriminate]. }
  destruct (deduct_write kl vl (w_rt w)) as [[[]|e] r1].
  - cbn [fst] in HI. destruct HI as [HI _]. specialize (HI eq_refl). lia.
  - subst R. cbn in *. rewrite (EA _ eq_refl). split; reflexivity.
Qed.
(** Guard-free code that completes stayed within every limit, and paid for every line and every byte *)
Theorem C40_completed_within L fuel ch p s v s' : lang_all (module_all no_guard) L -> mods_all (module_all no_guard) (s_mods s) -> each no_guard p ->
  tr_started (tracer_of s) = true -> within s -> run L fuel ch p s = (Ok v, s') ->
  within s' /\ exists l, s_log s' = s_log s ++ l /\
    tr_calls (tracer_of s') = tr_calls (tracer_of s) + line_count l /\
    cost_of s' = cost_of s + line_costs l + 25 * (bytes_of s' - bytes_of s).
Proof.
  intros HL HM HP S0 HW ER. pose proof (run_mmon L fuel HL ch p s HP HM) as [[_ _ _ _ (l & HLo & HK)] _]. rewrite ER in *. cbn [fst snd is_ok] in *.
  destruct (HK eq_refl S0) as (A & B & C & D). split; [auto|]. exists l. auto.
Qed.

(** A whole transaction *)
Definition held (s : mach) (b : bool) (s' : mach) : Prop :=
  mods_all (module_all no_guard) (s_mods s) -> mmon s b s' /\ mods_all (module_all no_guard) (s_mods s').
Lemma prepare_held L fuel g t s : lang_all (module_all no_guard) L -> mods_all (module_all no_guard) (s_mods s) ->
  mmon s (is_ok (fst (prepare L fuel g t s))) (snd (prepare L fuel g t s)) /\ mods_all (module_all no_guard) (s_mods (snd (prepare L fuel g t s))).
Proof.
  intros HL. change (held s (is_ok (fst (prepare L fuel g t s))) (snd (prepare L fuel g t s))). apply (prepare_rel L fuel g t held); unfold held.
  - intros; split; [apply glue_mmon, glue_refl|assumption].
  - intros x b y z A1 A2 A3. destruct (A1 A3) as [B1 B2]. destruct (A2 B2) as [C1 C2]. split; [eapply mmon_trans; eassumption|assumption].
  - intros x y b G EM _ _ Hm. split; [apply glue_mmon, G|rewrite EM; exact Hm].
  - intros x b e Hm. split; [|exact Hm]. eapply rmon_within with (l := []); [apply rmon_same; reflexivity|cbn; rewrite app_nil_r; reflexivity|reflexivity..].
  - intros x Hm. apply import_mmon; assumption.
Qed.
(** [loading]: until the contract has been imported and its function found; [running]: its call *)
Theorem C40_transaction L fuel g t s out s' : lang_all (module_all no_guard) L -> mods_all (module_all no_guard) (s_mods s) ->
  idle s -> metered g t = true -> 0 <= t_stamps t -> execute L fuel g t s = (Ok out, s') -> o_status out = 0 ->
  exists loading running cost bytes,
    s_log s' = loading ++ running /\ cost = line_costs running + 25 * bytes /\ o_stamps out = Z.min (cost / 1000 + 5) (t_stamps t) /\
    cost <= 1000 * t_stamps t /\ cost <= 6500000 /\ line_count running <= 800000 /\ 0 <= bytes < 131072 /\
    (forall kw sa, prepare L fuel g t (began s) = (Ok kw, sa) -> s_log sa = loading).
Proof.
  intros HL HM HI HG HT HE HS. apply execute_inv in HE as (_ & r & s1 & w & s3 & HP & _ & HF & -> & ->). cbn [o_status o_stamps] in *.
  inversion HP as [e sa Ea X1|kw sa e sb Ea Eb X1|kw sa v sb e sc Ea Eb A Ec X1|kw sa v sb sc Ea Eb Ec X1]; subst r; try discriminate HS. subst sc.
  pose proof (prepare_held L fuel g t (began s) HL HM) as H1. rewrite Ea in H1. cbn [fst snd is_ok] in H1.
  destruct H1 as [[H1 _ _ _ (l0 & HL0 & _)] HMa].
  assert (TR : tracer_of (began s) = tracer0) by exact (id_tracer _ HI). assert (BY : bytes_of (began s) = 0) by exact (id_bytes _ HI).
  rewrite TR in H1. destruct (H1 eq_refl) as [T1 B1]. clear H1.
  destruct (call_mmon L fuel HL [] (t_contract t) (t_function t) kw (primed g t sa) HMa) as [[_ H2 _ H5 (l & HL2 & H6)] _].
  unfold entry_call in Eb. rewrite Eb in *. cbn [fst snd is_ok] in *.
  assert (TP : tracer_of (primed g t sa) = mkTr 0 (t_stamps t * 1000) 0 0 true 0).
  { unfold primed, tracer_of, upd_r, upd_w, s_rt, set_up. cbn. rewrite HG. cbn. unfold tracer_of, s_rt in T1. rewrite T1. reflexivity. }
  assert (BP : bytes_of (primed g t sa) = 0) by (unfold primed, bytes_of, s_rt, set_up; cbn; rewrite HG; cbn; unfold bytes_of, s_rt in *; congruence).
  destruct (H6 eq_refl) as (A1 & A2 & A3 & A4); [rewrite TP; reflexivity|].
  assert (W0 : within (primed g t sa)).
  { unfold within, cost_of. rewrite TP, BP. cbn. lia. }
  destruct (A4 W0) as (W1 & W2 & W3 & W4). unfold cost_of in A2 at 2. rewrite TP in A2, A3, H2. rewrite BP in A2, H5. cbn in A2, A3, H2. rewrite H2 in W1.
  destruct (auto_same t sb _ _ Ec) as (G1 & G2 & _). destruct (restore_same t (dv_writes (s_drv s)) (Ok (v, dv_txn (s_drv sb), dv_events (s_drv sb))) s1) as (R1 & R2 & _).
  set (s2 := restore t (dv_writes (s_drv s)) (Ok (v, dv_txn (s_drv sb), dv_events (s_drv sb))) s1) in *.
  assert (S2 : tr_started (rt_tracer (s_rt s2)) = false) by (rewrite R2; reflexivity).
  destruct (charge_fee_inv L g t _ _ _ _ _ S2 HF) as (F1 & _).
  exists (l0), l, (line_costs l + 25 * bytes_of sb), (bytes_of sb).
  assert (CS : tr_cost (rt_tracer (s_rt s2)) = line_costs l + 25 * bytes_of sb).
  { rewrite R2, G2. cbn. unfold cost_of, tracer_of in A2. lia. }
  split; [|split; [reflexivity|split; [|repeat (split; [unfold cost_of in *; lia|])]]].
  3:{ intros kw' sa' Ea'. rewrite Ea in Ea'. injection Ea' as _ <-. exact HL0. }
  - change (s_log (wind_up s3)) with (s_log s3). rewrite F1, R1, G1, HL2. change (s_log (primed g t sa)) with (s_log sa). rewrite HL0. reflexivity.
  - unfold stamps_used. rewrite CS. destruct (Z.ltb_spec (t_stamps t) ((line_costs l + 25 * bytes_of sb) / 1000 + 5)); lia.
Qed.
(** Two assignments and two lines, metered *)
Definition meter_mod := only_f (u "con_m") (PLine (code_line 100) (put "con_m" "x" (VInt 5) (PLine (code_line 85) (put "con_m" "y" (VStr (u "abc")) (PRet (VInt 1)))))).
Definition meter_lang := demo [(u "con_m", meter_mod)].
Definition meter_start := idle_mach (deployed (u "con_m") (u "con_m") VNone ++ funded "bob" 100).
Definition meter_run := execute meter_lang 10 cfg0 (call_of "bob" "con_m" "f") meter_start.
Example C40_example :
  lang_all (module_all no_guard) meter_lang /\ mods_all (module_all no_guard) (s_mods meter_start) /\ idle meter_start /\
  match meter_run with (Ok out, s') => o_status out = 0 /\ o_stamps out = 6 /\ line_costs (s_log s') = 1002 /\ line_count (s_log s') = 2 | _ => False end.
Proof.
  split; [|split; [|split]].
  - split.
    + intros b md. unfold meter_lang, demo. cbn [l_interp dget]. destruct (str_eqb b (u "con_m")); [|discriminate]. intros E. injection E as <-.
      constructor.
      * cbn. auto.
      * discriminate.
      * intros n f a. unfold meter_mod, only_f. cbn [m_funcs dget]. destruct (str_eqb n (u "f")); [|discriminate]. intros E. injection E as <-. cbn. repeat split.
    + intros n md. unfold meter_lang, demo. cbn [l_host]. destruct (str_eqb n (u "os")); [|discriminate]. intros E. injection E as <-.
      constructor; [cbn; auto|discriminate|]. intros m f a. unfold os_module. cbn [m_funcs dget]. destruct (str_eqb m (u "system")); [|discriminate]. intros E. injection E as <-. cbn. auto.
  - intros n md. discriminate.
  - constructor; reflexivity.
  - vm_compute. auto.
Qed.

(** ** C41: written bytes *)
Theorem C41_write k v b w kl vl : tr_started (rt_tracer (w_rt w)) = true -> encode_kv_len k v = Ok (kl, vl) ->
  (131072 <= rt_writes (w_rt w) + (Z.of_nat kl + Z.of_nat vl) -> fst (set k v b w) = Err EAssertion /\ w_drv (snd (set k v b w)) = w_drv w) /\
  (forall w', set k v b w = (Ok tt, w') ->
     rt_writes (w_rt w') = rt_writes (w_rt w) + (Z.of_nat kl + Z.of_nat vl) /\ rt_writes (w_rt w') < 131072 /\
     tr_cost (rt_tracer (w_rt w')) = tr_cost (rt_tracer (w_rt w)) + 25 * (Z.of_nat kl + Z.of_nat vl)).
Proof.
  intros S0 HE. destruct (deduct_spec kl vl (w_rt w) S0) as (HB & HI & HC). unfold WRITE_MAX, WRITE_COST_PER_BYTE in *. split.
  - intros HG. remember (set k v b w) as R eqn:ER. unfold set in ER. rewrite bind_eq, HE in ER. cbn [lift] in ER. rewrite bind_eq in ER. unfold on_rt, deduct_write in ER.
    rewrite S0 in ER. cbv zeta in ER. cbn [rt_writes set_rwrites] in ER. unfold WRITE_MAX in ER.
    destruct (Z.ltb_spec (rt_writes (w_rt w) + (Z.of_nat kl + Z.of_nat vl)) (1024 * 128)); [lia|]. subst R. split; reflexivity.
  - intros w' ER. unfold set in ER. rewrite bind_eq, HE in ER. cbn [lift] in ER. rewrite bind_eq in ER. unfold on_rt in ER.
    destruct (deduct_write kl vl (w_rt w)) as [[[]|e] r1]; [|discriminate ER]. cbn [fst snd] in *.
    unfold on_drv in ER. destruct (set_body k v b (w_drv (mkW (w_drv w) r1))) as [x v1]. injection ER as _ <-. cbn [w_rt].
    destruct HI as [HI _]. specialize (HI eq_refl). specialize (HC eq_refl). lia.
Qed.
Lemma set_bytes k v b w w' : tr_started (rt_tracer (w_rt w)) = true -> set k v b w = (Ok tt, w') -> rt_writes (w_rt w') = rt_writes (w_rt w) + entry_bytes k v.
Proof.
  intros S0 E. destruct (encode_kv_len k v) as [[kl vl]|e] eqn:HE.
  2:{ unfold set in E. rewrite bind_eq, HE in E. discriminate E. }
  destruct (C41_write k v b w kl vl S0 HE) as [_ H]. destruct (H w' E) as (H1 & _ & _). rewrite H1. f_equal.
  unfold entry_bytes. unfold encode_kv_len, bindr in HE. destruct (utf8_len k); [|discriminate]. destruct (encode v); [|discriminate]. destruct (utf8_len a0); [|discriminate]. injection HE as <- <-. reflexivity.
Qed.
(** computations that count no bytes and leave tracing on *)
Definition keeps {A} (m : st world A) : Prop := forall w,
  rt_writes (w_rt (snd (m w))) = rt_writes (w_rt w) /\ tr_started (rt_tracer (w_rt (snd (m w)))) = tr_started (rt_tracer (w_rt w)).
Lemma ke_ret A (a : A) : keeps (ret a). Proof. split; reflexivity. Qed.
Lemma ke_lift A (r : result A) : keeps (lift r). Proof. split; reflexivity. Qed.
Lemma ke_raise A e : keeps (raise e : st world A). Proof. split; reflexivity. Qed.
Lemma ke_gets A (f : world -> A) : keeps (gets f). Proof. split; reflexivity. Qed.
Lemma ke_drv A (m : st driver A) : keeps (on_drv m). Proof. intros w. unfold on_drv. destruct (m (w_drv w)). split; reflexivity. Qed.
Lemma ke_seed x : keeps (modify (upd_rt (set_seeded x))). Proof. split; reflexivity. Qed.
Lemma ke_bind A B (m : st world A) (k : A -> st world B) : keeps m -> (forall a, keeps (k a)) -> keeps (bind m k).
Proof.
  intros Hm Hk w. unfold bind. specialize (Hm w). destruct (m w) as [[a|e] w1]; cbn [snd] in *; [|exact Hm].
  specialize (Hk a w1). intuition congruence.
Qed.
Lemma ke_foreach A (f : A -> st world unit) l : (forall a, keeps (f a)) -> keeps (foreach f l).
Proof. intros H. induction l; cbn [foreach]; [apply ke_ret | apply ke_bind; auto]. Qed.
Lemma ke_ok A B (m : st world A) (k : A -> st world B) w b w' : keeps m -> bind m k w = (Ok b, w') ->
  exists a w1, m w = (Ok a, w1) /\ k a w1 = (Ok b, w') /\ rt_writes (w_rt w1) = rt_writes (w_rt w) /\ tr_started (rt_tracer (w_rt w1)) = tr_started (rt_tracer (w_rt w)).
Proof. intros Hm E. apply bind_ok in E as (a & w1 & E1 & E2). exists a, w1. destruct (Hm w) as [H1 H2]. rewrite E1 in *. cbn [snd] in *. auto. Qed.
Definition sum_bytes (l : dict pyval) : Z := fold_right (fun kv n => entry_bytes (fst kv) (snd kv) + n) 0 l.
Lemma lift_ok {S A} (r : result A) (w : S) a w' : lift r w = (Ok a, w') -> r = Ok a /\ w' = w.
Proof. unfold lift. intros E. injection E as -> ->. split; reflexivity. Qed.
Lemma pay_bytes params l : forall w w', tr_started (rt_tracer (w_rt w)) = true -> foreach (pay_arg params) l w = (Ok tt, w') ->
  rt_writes (w_rt w') = rt_writes (w_rt w) + sum_bytes l /\ tr_started (rt_tracer (w_rt w')) = true.
Proof.
  induction l as [|[k v] l IH]; intros w w' S0 E; cbn [foreach] in E.
  - injection E as <-. unfold sum_bytes. cbn. split; [lia|exact S0].
  - apply bind_ok in E as ([] & w1 & E1 & E2).
    assert (H : rt_writes (w_rt w1) = rt_writes (w_rt w) + entry_bytes k v /\ tr_started (rt_tracer (w_rt w1)) = true).
    { unfold pay_arg in E1. cbn [fst snd] in E1. apply bind_ok in E1 as (q & wa & X1 & E1). apply lift_ok in X1 as [_ ->].
      apply bind_ok in E1 as (q2 & wa & X2 & E1). apply lift_ok in X2 as [_ ->]. apply bind_ok in E1 as ([] & wa & X3 & E1). apply lift_ok in X3 as [_ ->].
      apply bind_ok in E1 as ([a0 b0] & wa & X4 & E1). apply lift_ok in X4 as [HE ->].
      unfold on_rt in E1. destruct (deduct_spec a0 b0 (w_rt w) S0) as (HB & _). pose proof (rm_ok _ _ _ _ _ (deduct_rmon a0 b0 (w_rt w)) S0) as HO.
      destruct (deduct_write a0 b0 (w_rt w)) as [[[]|e] r1]; [|discriminate E1]. injection E1 as <-. cbn [w_rt fst snd is_ok] in *. destruct (HO eq_refl) as (HS & _). split; [|exact HS].
      rewrite HB. f_equal. unfold entry_bytes. unfold encode_kv_len, bindr in HE. destruct (utf8_len k); [|discriminate]. destruct (encode v) as [txt|]; [|discriminate]. destruct (utf8_len txt); [|discriminate]. injection HE as <- <-. reflexivity. }
    destruct H as [H1 H2]. destruct (IH _ _ H2 E2) as [H3 H4]. split; [|exact H4]. rewrite H3, H1. unfold sum_bytes. cbn [fold_right fst snd]. lia.
Qed.
Definition declared_bytes (data : dict pyval) (params : dict param) : Z :=
  fold_right (fun p n => (match dget (fst p) data with Some v => entry_bytes (fst p) v | None => 0 end) + n) 0 params.
Lemma select_bytes sel params data ix : select sel params data = Ok ix -> sum_bytes ix = declared_bytes data (filter (fun p => sel (snd p)) params).
Proof.
  unfold select. set (l := filter _ params). clearbody l. revert ix. induction l as [|p l IH]; intros ix E.
  - injection E as <-. reflexivity.
  - cbn [seqr] in E. unfold getitem in E at 1. cbn [declared_bytes fold_right]. destruct (dget (fst p) data) as [v|]; [|discriminate E]. cbn [bindr] in E.
    destruct (seqr _ l) as [ys|]; [|discriminate E]. injection E as <-. unfold sum_bytes. cbn [fold_right fst snd]. f_equal. apply (IH ys eq_refl).
Qed.
Lemma split_bytes data (sel : param -> bool) params :
  declared_bytes data (filter (fun p => sel (snd p)) params) + declared_bytes data (filter (fun p => negb (sel (snd p))) params) = declared_bytes data params.
Proof.
  induction params as [|p l IH]; [reflexivity|]. cbn [filter]. destruct (sel (snd p)); cbn [negb declared_bytes fold_right]; fold (declared_bytes data l);
    repeat match goal with |- context [fold_right ?f ?z (filter ?h l)] => change (fold_right f z (filter h l)) with (declared_bytes data (filter h l)) end; lia.
Qed.
Lemma ke_step : forall L a, match a with ActVarSet _ _ | ActHashSet _ _ _ | ActHashClear _ _ | ActEmit _ _ _ | ActSetVar _ _ _ | ActSetContract _ _ _ _ _ => True | _ => keeps (do_act L a) end.
Proof.
  intros L a. destruct a; try exact I; cbn [do_act].
  - apply ke_bind; [apply ke_drv|intros; apply ke_ret].
  - unfold hash_get. apply ke_bind; [apply ke_lift|]. intros s. apply ke_bind; [apply ke_drv|]. intros y.
    destruct (if is_none y then h_default h else y); try apply ke_ret; (apply ke_bind; [apply ke_lift | intros; apply ke_ret]).
  - apply ke_bind; [|intros; apply ke_ret]. unfold hash_all. apply ke_bind; [apply ke_lift|]. intros p. apply ke_drv.
  - unfold do_seed. apply ke_bind; [apply ke_gets|]. intros r. apply ke_bind; [apply ke_lift|]. intros s. apply ke_bind; [apply ke_seed | intros; apply ke_ret].
  - unfold do_random. apply ke_bind; [apply ke_gets|]. intros r. destruct (rt_seeded r) as [[s ds]|]; [|apply ke_raise].
    apply ke_bind; [apply ke_seed | intros; apply ke_lift].
  - apply ke_drv.
Qed.
Lemma act_counts L a k s v s' : orm_only (PAct a k) -> tr_started (tracer_of s) = true -> act L a s = (Ok v, s') ->
  bytes_of s' = bytes_of s + act_bytes L (OAct (get_state (s_ctx s)) a).
Proof.
  intros HO S0 E. unfold act, on_w in E. pose proof (ke_step L a) as HK. destruct (do_act L a (s_w s)) as [[x|e] w'] eqn:ED; [|discriminate E]. injection E as <- <-.
  unfold bytes_of, s_rt. cbn [s_w note set_log set_w]. unfold tracer_of, s_rt in S0.
  destruct a; cbn in HO; try contradiction; cbn [act_bytes]; try (specialize (HK (s_w s)); rewrite ED in HK; cbn [snd] in HK; lia); clear HK; cbn [do_act] in ED.
  - apply bind_ok in ED as ([] & w1 & E1 & E2). injection E2 as _ <-. unfold var_set in E1.
    apply ke_ok in E1 as (? & w2 & _ & E1 & H1 & H2).
    2:{ destruct (v_type x0); [|apply ke_ret]. destruct (is_none v); [apply ke_ret|]. apply ke_bind; [apply ke_lift|intros; apply ke_lift]. }
    rewrite (set_bytes _ _ _ _ _ (eq_trans H2 S0) E1), H1. reflexivity.
  - apply bind_ok in ED as ([] & w1 & E1 & E2). injection E2 as _ <-. unfold hash_set in E1. apply bind_ok in E1 as (t & w2 & X & E1). cbn [lift] in X.
    injection X as X <-. rewrite X. apply (set_bytes _ _ _ _ _ S0 E1).
  - apply ke_ok in ED as (ev & w1 & E0 & ED & H1 & H2).
    2:{ unfold log_decl. apply ke_bind; [apply ke_gets|]. intros sg. apply ke_bind; [apply ke_lift|]. intros _. apply ke_bind; [apply ke_lift|]. intros _.
        apply ke_bind; [|intros; apply ke_ret]. apply ke_foreach. intros q. destruct (p_types (snd q)); [apply ke_lift | apply ke_raise]. }
    assert (HP : le_params ev = params).
    { unfold log_decl in E0. apply bind_ok in E0 as (? & ? & _ & E0). apply bind_ok in E0 as (? & ? & _ & E0). apply bind_ok in E0 as (? & ? & _ & E0). apply bind_ok in E0 as (? & ? & _ & E0).
      injection E0 as <- _. reflexivity. }
    apply bind_ok in ED as ([] & w2 & E1 & E2). injection E2 as _ <-. unfold log_emit in E1. rewrite HP in E1.
    apply ke_ok in E1 as (cs & wa & _ & E1 & A1 & A2); [|apply ke_gets].
    apply ke_ok in E1 as (x1 & wb & _ & E1 & B1 & B2); [|apply ke_lift].
    apply ke_ok in E1 as (x2 & wc & _ & E1 & C1 & C2); [|apply ke_foreach; intros; apply ke_lift].
    apply ke_ok in E1 as (x3 & wd & _ & E1 & D1 & D2); [|apply ke_foreach; intros; apply ke_lift].
    apply ke_ok in E1 as (ix & we & X1 & E1 & F1 & F2); [|apply ke_lift].
    apply ke_ok in E1 as (dt & wf & X2 & E1 & G1 & G2); [|apply ke_lift].
    apply bind_ok in E1 as ([] & wg & P1 & E1). apply bind_ok in E1 as ([] & wh & P2 & E1).
    assert (SF : tr_started (rt_tracer (w_rt wf)) = true) by congruence.
    destruct (pay_bytes _ _ _ _ SF P1) as [Q1 Q2]. destruct (pay_bytes _ _ _ _ Q2 P2) as [Q3 _].
    cbn [lift] in X1, X2. injection X1 as X1 _. injection X2 as X2 _. apply select_bytes in X1. apply select_bytes in X2.
    unfold on_drv in E1. cbn in E1. injection E1 as <-. cbn [w_rt]. change (fold_right _ 0 params) with (declared_bytes data params). rewrite <- (split_bytes data p_idx params). lia.
Qed.
(** Guard-free code that changes the state by assignments and events only: every byte of them is counted *)
Definition orm_free (p : prog) : Prop := no_guard p /\ orm_only p.
Record counted (L : lang) (s : mach) (ok : bool) (s' : mach) : Prop := mkCounted {
  co_mon : mmon s ok s';
  co_log : exists l, s_log s' = s_log s ++ l /\ (ok = true -> tr_started (tracer_of s) = true -> bytes_of s' = bytes_of s + act_bytes_of L l) }.
Lemma act_bytes_app L a b : act_bytes_of L (a ++ b) = act_bytes_of L a + act_bytes_of L b.
Proof. induction a as [|o a IH]; [reflexivity|]. cbn [app act_bytes_of fold_right]. fold (act_bytes_of L (a ++ b)) (act_bytes_of L a). rewrite IH. lia. Qed.
Lemma no_act_bytes L l : Forall no_act l -> act_bytes_of L l = 0.
Proof. induction 1 as [|o l Ho _ IH]; [reflexivity|]. cbn [act_bytes_of fold_right]. fold (act_bytes_of L l). destruct o; cbn in Ho |- *; try contradiction; lia. Qed.
Lemma counted_glue L s s' b : glue s s' -> counted L s b s'.
Proof.
  intros G. destruct (glue_rmon _ _ G) as [H1 H2]. pose proof G as [_ _ _ (l & HL & Hl)]. constructor; [apply glue_mmon, G|].
  exists l. split; [exact HL|]. intros _ _. unfold bytes_of. rewrite H2, (no_act_bytes L l Hl). lia.
Qed.
Lemma counted_trans L s b s1 s2 : counted L s true s1 -> counted L s1 b s2 -> counted L s b s2.
Proof.
  intros [M1 (l & HL & H)] [M2 (l' & HL' & H')]. constructor; [eapply mmon_trans; eassumption|]. exists (l ++ l'). rewrite HL', HL, app_assoc. split; [reflexivity|].
  intros Hb S0. destruct M1 as [_ _ _ _ (l2 & _ & HM)]. destruct (HM eq_refl S0) as (S1 & _). rewrite act_bytes_app, (H' Hb S1), (H eq_refl S0). lia.
Qed.
Theorem C41_bytes_counted L fuel ch p s v s' : lang_all (module_all orm_free) L -> mods_all (module_all orm_free) (s_mods s) -> each orm_free p ->
  tr_started (tracer_of s) = true -> within s -> run L fuel ch p s = (Ok v, s') ->
  bytes_of s' < 131072 /\ exists l, s_log s' = s_log s ++ l /\ bytes_of s' = bytes_of s + act_bytes_of L l /\ cost_of s' = cost_of s + line_costs l + 25 * act_bytes_of L l.
Proof.
  intros HL HM HP S0 HW ER.
  assert (H : counted L s (is_ok (fst (run L fuel ch p s))) (snd (run L fuel ch p s)) /\ mods_all (module_all orm_free) (s_mods (snd (run L fuel ch p s)))).
  { eapply run_rel with (Q := orm_free) (QM := module_all orm_free) (Rel := counted L);
      [ apply HL | apply HL | intros md H; apply H | intros md f a H; apply H | intros ??? ? H; apply H
      | intros; apply counted_glue, glue_refl | apply counted_trans | intros; apply counted_glue; assumption | | | | | exact HP | exact HM ].
    - intros x b y z [M1 (l & HLo & H)] G. pose proof G as [_ _ _ (l' & HL' & Hl')]. destruct (glue_rmon _ _ G) as [G1 G2]. constructor; [eapply mmon_after; eassumption|].
      exists (l ++ l'). rewrite HL', HLo, app_assoc. split; [reflexivity|]. intros Hb Sx. rewrite act_bytes_app, (no_act_bytes L l' Hl'). unfold bytes_of in *. rewrite G2, (H Hb Sx). lia.
    - intros a k x [_ HQ]. constructor; [apply act_mmon|]. pose proof (act_counts L a k x) as HA. destruct (act L a x) as [[y|e] x1] eqn:EA; cbn [fst snd is_ok].
      + exists [OAct (get_state (s_ctx x)) a]. split.
        * unfold act in EA. destruct (on_w (do_act L a) x) as [[y'|e] x'] eqn:EW; [|discriminate EA]. injection EA as <- <-. unfold on_w in EW. destruct (do_act L a (s_w x)). injection EW as _ <-. reflexivity.
        * intros _ Sx. rewrite (HA y x1 HQ Sx eq_refl). unfold act_bytes_of. cbn [fold_right]. lia.
      + exists []. split; [|discriminate]. unfold act in EA. destruct (on_w (do_act L a) x) as [[y'|e'] x'] eqn:EW; [discriminate EA|]. injection EA as _ <-. unfold on_w in EW. destruct (do_act L a (s_w x)). injection EW as _ <-. symmetry. apply app_nil_r.
    - intros e k x _. constructor; [apply line_mmon|]. exists [OLine e]. unfold line, on_w, on_rt, on_tracer. cbn [s_w note set_log]. destruct (on_line e (rt_tracer (w_rt (s_w x)))) as [y r']. cbn. split; [reflexivity|].
      intros _ _. unfold bytes_of, s_rt. cbn. lia.
    - intros ls ok k x [HQ _]. destruct HQ. }
  rewrite ER in H. cbn [fst snd is_ok] in H. destruct H as [[[_ _ _ _ (l1 & HL1 & HM1)] (l & HLo & HB)] _]. destruct (HM1 eq_refl S0) as (_ & HC & _ & W). destruct (W HW) as (_ & _ & _ & HLt).
  rewrite HLo in HL1. apply app_inv_head in HL1. subst l1. specialize (HB eq_refl S0). split; [exact HLt|]. exists l. split; [exact HLo|]. split; [exact HB|]. lia.
Qed.
Definition bytes_prog := put "con_m" "x" (VInt 5) (PAct (ActEmit (u "Sent") [(u "to", mkParam (Some [TStr]) true); (u "n", mkParam (Some [TInt]) false)] [(u "n", VInt 7); (u "to", VStr (u "bob"))])
  (fun _ => put_h "con_m" "h" "k" (VStr (u "abc")) (PRet VNone))).
Definition on_tape (calls cost supplied : Z) (s : mach) : mach := set_w (upd_rt (set_tracer (mkTr cost supplied 0 0 true calls)) (s_w s)) s.
Definition bytes_start := on_tape 0 0 1000000 (idle_mach []).
Example C41_example : each orm_free bytes_prog /\ within bytes_start /\
  match run (demo []) 5 [] bytes_prog bytes_start with (Ok _, s') => act_bytes_of (demo []) (s_log s') = 8 + (2 + 5) + (1 + 1) + (9 + 5) /\ bytes_of s' = 31 | _ => False end /\
  fst (set (u "con_m.x") (VStr (repeat 97%N (N.to_nat 131063))) true (s_w bytes_start)) = Err EAssertion.
Proof. split; [cbn; repeat split|]. split; [vm_compute; repeat split; discriminate|]. split; vm_compute; auto. Qed.

(** ** C42: the tracer's signal *)
(** In code without those library functions a signal always ends the execution *)
Theorem C42_signal_ends_execution_partial L fuel ch p s : lang_all (module_all no_guard) L -> mods_all (module_all no_guard) (s_mods s) -> each no_guard p ->
  tr_started (tracer_of s) = true -> tr_started (tracer_of (snd (run L fuel ch p s))) = false ->
  exists e, fst (run L fuel ch p s) = Err e.
Proof.
  intros HL HM HP S0 S1. pose proof (run_mmon L fuel HL ch p s HP HM) as [[_ _ _ _ (l & _ & HK)] _].
  destruct (run L fuel ch p s) as [[v|e] s']; cbn [fst snd is_ok] in *; [|eauto]. destruct (HK eq_refl S0) as (A & _). congruence.
Qed.
(** With them it does not: crypto.verify and crypto.key_is_valid swallow the signal, the tracer is off, and the rest of
    the transaction is free.  One hundred traced lines per iteration, the last of the 800000 inside a verification. *)
Fixpoint verify_loop (n : nat) (k : prog) : prog :=
  match n with O => k | S m => PLine (code_line 100) (PGuard (repeat lib_line (Z.to_nat 99)) true (fun _ => verify_loop m k)) end.
Fixpoint code_loop (n : nat) : prog := match n with O => PRet VNone | S m => PLine (code_line 85) (code_loop m) end.
Definition free_riding (n : nat) : prog := PGuard (repeat lib_line (Z.to_nat 50)) true (fun _ => verify_loop (Z.to_nat 8000) (code_loop n)).
Record taped (s : mach) (calls cost : Z) : Prop := mkTaped {
  ta_on : tr_started (tracer_of s) = true; ta_calls : tr_calls (tracer_of s) = calls; ta_cost : cost_of s = cost;
  ta_supplied : tr_supplied (tracer_of s) = 1000000; ta_mem : tr_total_mem (tracer_of s) = 0 /\ (tr_last_mem (tracer_of s) = 0 \/ tr_last_mem (tracer_of s) = 1000) }.
Lemma lib_line_ok s c j : taped s c j -> c < 800000 -> exists s', line lib_line s = (Ok tt, s') /\ taped s' (c + 1) j /\ s_log s' = s_log s ++ [OLine lib_line].
Proof.
  intros [A B C D E] H. unfold line, on_w, on_rt, on_tracer, on_line. unfold cost_of, tracer_of, s_rt in *. cbn [s_w note set_log]. rewrite A. unfold trace_line. cbn [tr_calls]. rewrite B.
  destruct (Z.ltb_spec MAX_CALLS (c + 1)) as [X|_]; [unfold MAX_CALLS in X; lia|]. cbn. eexists. split; [reflexivity|]. split; [|reflexivity]. constructor; cbn; auto.
Qed.
Lemma lib_lines_ok n : forall s c j, taped s c j -> c + Z.of_nat n <= 800000 ->
  exists s' l, foreach line (repeat lib_line n) s = (Ok tt, s') /\ taped s' (c + Z.of_nat n) j /\ s_log s' = s_log s ++ l.
Proof.
  induction n as [|n IH]; intros s c j T H.
  - exists s, []. rewrite app_nil_r. split; [reflexivity|]. split; [|reflexivity]. replace (c + Z.of_nat 0) with c by lia. exact T.
  - destruct (lib_line_ok s c j T) as (s1 & E1 & T1 & L1); [lia|]. destruct (IH s1 (c + 1) j T1) as (s2 & l & E2 & T2 & L2); [lia|].
    exists s2, (OLine lib_line :: l). cbn [repeat foreach]. rewrite bind_eq, E1, E2. split; [reflexivity|]. split; [replace (c + Z.of_nat (S n)) with (c + 1 + Z.of_nat n) by lia; exact T2|].
    rewrite L2, L1, <- app_assoc. reflexivity.
Qed.
Lemma lib_line_last s j : taped s 800000 j -> exists s', line lib_line s = (Err EAssertion, s') /\ tr_started (tracer_of s') = false /\ cost_of s' = j /\ exists l, s_log s' = s_log s ++ l.
Proof.
  intros [A B C D E]. unfold line, on_w, on_rt, on_tracer, on_line. unfold cost_of, tracer_of, s_rt in *. cbn [s_w note set_log]. rewrite A. unfold trace_line. cbn [tr_calls]. rewrite B.
  cbn. eexists. split; [reflexivity|]. cbn. split; [reflexivity|]. split; [exact C|]. eexists; reflexivity.
Qed.
Lemma lib_lines_stop n : forall s c j, taped s c j -> c <= 800000 -> 800000 < c + Z.of_nat n ->
  exists s', foreach line (repeat lib_line n) s = (Err EAssertion, s') /\ tr_started (tracer_of s') = false /\ cost_of s' = j /\ exists l, s_log s' = s_log s ++ l.
Proof.
  induction n as [|n IH]; intros s c j T H1 H2; [lia|]. cbn [repeat foreach]. destruct (Z.eq_dec c 800000) as [->|Hc].
  - destruct (lib_line_last s j T) as (s' & E & X). exists s'. rewrite bind_eq, E. split; [reflexivity|exact X].
  - destruct (lib_line_ok s c j T) as (s1 & E1 & T1 & L1); [lia|]. destruct (IH s1 (c + 1) j T1) as (s2 & E2 & S2 & C2 & l & L2); [lia|lia|].
    exists s2. rewrite bind_eq, E1. split; [exact E2|]. split; [exact S2|]. split; [exact C2|]. exists (OLine lib_line :: l). rewrite L2, L1, <- app_assoc. reflexivity.
Qed.
Lemma code_line_ok s c j : taped s c j -> c < 800000 -> j + 2 <= 1000000 -> exists s', line (code_line 100) s = (Ok tt, s') /\ taped s' (c + 1) (j + 2) /\ s_log s' = s_log s ++ [OLine (code_line 100)].
Proof.
  intros [A B C D [E1 E2]] H Hj. unfold line, on_w, on_rt, on_tracer, on_line. unfold cost_of, tracer_of, s_rt in *. cbn [s_w note set_log]. rewrite A. unfold trace_line. cbn [tr_calls tr_last_mem tr_total_mem tr_started tr_cost tr_supplied]. rewrite B.
  destruct (Z.ltb_spec MAX_CALLS (c + 1)) as [X|_]; [unfold MAX_CALLS in X; lia|]. cbn [le_contract code_line negb le_rss1 le_rss2 le_opcode].
  set (last := if Z.eqb _ 0 then 1000 else _). assert (HL : last = 1000) by (unfold last; destruct E2 as [-> | ->]; reflexivity). rewrite HL. rewrite E1. cbn [Z.ltb Z.compare Pos.compare Pos.compare_cont].
  unfold charge. cbn [tr_cost tr_supplied]. change (cu_cost 100) with 2. rewrite C, D.
  destruct (Z.ltb_spec 1000000 (j + 2)); [lia|]. destruct (Z.ltb_spec MAX_STAMPS (j + 2)) as [X|_]; [unfold MAX_STAMPS in X; lia|].
  cbn. eexists. split; [reflexivity|]. split; [|reflexivity]. constructor; cbn; auto.
Qed.
Lemma verify_loop_stops L R ch k n : forall s c j, taped s c j -> (n > 0)%nat -> c = 800050 - 100 * Z.of_nat n -> 0 <= c -> j + 2 * Z.of_nat n <= 1000000 ->
  exists s', go L R ch (verify_loop n k) s = go L R ch k s' /\ tr_started (tracer_of s') = false /\ cost_of s' <= 1000000 /\ exists l, s_log s' = s_log s ++ l.
Proof.
  induction n as [|n IH]; intros s c j T Hn Hc H0 Hj; [lia|]. cbn [verify_loop go].
  destruct (code_line_ok s c j T) as (s1 & E1 & T1 & L1); [lia|lia|]. rewrite bind_eq, E1, bind_eq. unfold guard.
  destruct n as [|n].
  - destruct (lib_lines_stop (Z.to_nat 99) s1 (c + 1) _ T1) as (s2 & E2 & S2 & C2 & l & L2); [lia|lia|]. rewrite E2. exists s2. split; [reflexivity|]. split; [exact S2|]. split; [lia|].
    exists ([OLine (code_line 100)] ++ l). rewrite L2, L1, <- app_assoc. reflexivity.
  - destruct (lib_lines_ok (Z.to_nat 99) s1 (c + 1) _ T1) as (s2 & l & E2 & T2 & L2); [lia|]. rewrite E2.
    destruct (IH s2 _ _ T2) as (s3 & E3 & S3 & C3 & l' & L3); [lia|lia|lia|lia|]. exists s3. split; [exact E3|]. split; [exact S3|]. split; [exact C3|].
    exists ([OLine (code_line 100)] ++ l ++ l'). rewrite L3, L2, L1, <- !app_assoc. reflexivity.
Qed.
Lemma code_loop_free L R ch n : forall s, tr_started (tracer_of s) = false ->
  exists s', go L R ch (code_loop n) s = (Ok VNone, s') /\ cost_of s' = cost_of s /\ s_log s' = s_log s ++ repeat (OLine (code_line 85)) n.
Proof.
  induction n as [|n IH]; intros s S0.
  - exists s. cbn. rewrite app_nil_r. auto.
  - cbn [code_loop go]. rewrite bind_eq. set (s1 := note (OLine (code_line 85)) s). assert (E1 : line (code_line 85) s = (Ok tt, s1)).
    { unfold line, on_w, on_rt, on_tracer, on_line. unfold tracer_of, s_rt in S0. cbn [s_w note set_log]. rewrite S0. unfold s1, note, set_w, set_log, set_tracer. destruct s as [[d [? ? ? ? ? ?]] ? ? ? ?]. reflexivity. }
    rewrite E1. destruct (IH s1 S0) as (s2 & E2 & C2 & L2). exists s2. split; [exact E2|]. split; [exact C2|]. rewrite L2. unfold s1. cbn. rewrite <- app_assoc. reflexivity.
Qed.
Theorem C42_metering_switched_off_refuted : forall n, exists p s s' l, tr_started (tracer_of s) = true /\ within s /\ cost_of s = 0 /\
  run (demo []) 0 [] p s = (Ok VNone, s') /\ s_log s' = l ++ repeat (OLine (code_line 85)) n /\ cost_of s' <= tr_supplied (tracer_of s) /\
  line_costs (s_log s') >= 1000 * Z.of_nat n.
Proof.
  intros n. set (s := on_tape 0 0 1000000 (idle_mach [])).
  assert (T : taped s 0 0) by (constructor; cbn; auto).
  destruct (lib_lines_ok (Z.to_nat 50) s 0 0 T) as (s1 & l1 & E1 & T1 & L1); [lia|].
  destruct (verify_loop_stops (demo []) (fun _ _ => raise ERecursion) [] (code_loop n) (Z.to_nat 8000) s1 _ _ T1) as (s2 & E2 & S2 & C2 & l2 & L2); [lia|lia|lia|lia|].
  destruct (code_loop_free (demo []) (fun _ _ => raise ERecursion) [] n s2 S2) as (s3 & E3 & C3 & L3).
  exists (free_riding n), s, s3, (s_log s2).
  split; [reflexivity|]. split; [vm_compute; repeat split; discriminate|]. split; [reflexivity|]. split; [|split; [exact L3|split; [rewrite C3; exact C2|]]].
  - unfold free_riding. cbn [run go]. rewrite bind_eq. unfold guard. rewrite E1, E2. exact E3.
  - rewrite L3, line_costs_app.
    assert (P : forall l, 0 <= line_costs l).
    { induction l as [|o l IH]; [cbn; lia|]. cbn [line_costs fold_right]. fold (line_costs l). assert (0 <= line_cost o); [|lia]. destruct o; cbn; try lia. destruct (le_contract e); [apply cu_pos|lia]. }
    specialize (P (s_log s2)). assert (Q : line_costs (repeat (OLine (code_line 85)) n) = 1000 * Z.of_nat n).
    { clear. induction n as [|n IH]; [reflexivity|]. cbn [repeat line_costs fold_right]. fold (line_costs (repeat (OLine (code_line 85)) n)). rewrite IH. change (line_cost (OLine (code_line 85))) with 1000. lia. }
    lia.
Qed.

Print Assumptions C40_line_raises.
Print Assumptions C40_line_charged.
Print Assumptions C40_write_raises.
Print Assumptions C40_completed_within.
Print Assumptions C40_transaction.
Print Assumptions C41_write.
Print Assumptions C41_bytes_counted.
Print Assumptions C42_signal_ends_execution_partial.
Print Assumptions C42_metering_switched_off_refuted.
