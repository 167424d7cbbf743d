(** * The tracer while contract code runs *)
From Verif Require Import Model.Base Model.State Model.Dec Model.Time Model.Value Model.Encoder Model.Hdf5 Model.Runtime Model.Driver Model.Orm Model.Exec Model.Executor.
From Verif Require Import Spec.OrmSpec Spec.ExecSpec Proofs.BaseFacts Proofs.DriverFacts Proofs.OrmFacts Proofs.ExecFacts Proofs.ExecRel.
From Coq Require Import Lia.
Open Scope Z_scope.

(** ** The two steps that charge *)
Lemma charge_spec n t : fst (charge n t) = (if (Z.ltb (tr_supplied t) (tr_cost t + n) || Z.ltb MAX_STAMPS (tr_cost t + n))%bool then Err EAssertion else Ok tt) /\
  tr_cost (snd (charge n t)) = tr_cost t + n /\ tr_supplied (snd (charge n t)) = tr_supplied t /\ tr_calls (snd (charge n t)) = tr_calls t /\
  tr_started (snd (charge n t)) = (is_ok (fst (charge n t)) && tr_started t)%bool.
Proof. unfold charge. cbn [tr_cost tr_supplied]. destruct (Z.ltb _ _ || Z.ltb _ _)%bool; repeat split. Qed.
Lemma cu_pos op : 0 <= cu_cost op.
Proof.
  unfold cu_cost. destruct (N.eqb op 255); [lia|].
  assert (H : Forall (fun x => 0 <= x) cu_table) by (unfold cu_table; repeat (constructor; [discriminate|]); constructor).
  destruct (nth_in_or_default (N.to_nat op) cu_table 1%Z) as [Hi| ->]; [|lia]. rewrite Forall_forall in H. apply H, Hi.
Qed.
Record tmon (t : tracer) (ok : bool) (t' : tracer) (calls cost : Z) : Prop := mkTmon {
  tm_off : tr_started t = false -> t' = t;
  tm_supplied : tr_supplied t' = tr_supplied t;
  tm_cost_le : tr_cost t <= tr_cost t' <= tr_cost t + cost;
  tm_calls_le : tr_calls t <= tr_calls t' <= tr_calls t + calls;
  tm_ok : tr_started t = true -> ok = true ->
    tr_started t' = true /\ tr_cost t' = tr_cost t + cost /\ tr_calls t' = tr_calls t + calls /\
    (tr_cost t <= tr_supplied t /\ tr_cost t <= MAX_STAMPS -> tr_cost t' <= tr_supplied t /\ tr_cost t' <= MAX_STAMPS) /\
    (tr_calls t <= MAX_CALLS -> tr_calls t' <= MAX_CALLS);
  tm_err : tr_started t = true -> ok = false -> tr_started t' = false }.
Lemma on_line_tmon e t : tmon t (is_ok (fst (on_line e t))) (snd (on_line e t)) 1 (if le_contract e then cu_cost (le_opcode e) else 0).
Proof.
  assert (HC : 0 <= (if le_contract e then cu_cost (le_opcode e) else 0)) by (destruct (le_contract e); [apply cu_pos|lia]).
  unfold on_line. destruct (tr_started t) eqn:S0.
  2:{ constructor; cbn [fst snd is_ok]; intros; try reflexivity; try discriminate; try lia; congruence. }
  unfold trace_line. cbn [tr_calls tr_cost tr_supplied tr_last_mem tr_total_mem tr_started]. destruct (Z.ltb_spec MAX_CALLS (tr_calls t + 1)).
  { constructor; cbn; intros; try reflexivity; try congruence; try lia. }
  destruct (le_contract e) eqn:C0; cbn [negb].
  2:{ constructor; cbn; intros; try reflexivity; try congruence; try lia. all: repeat split; try lia; assumption. }
  set (last := if Z.eqb (tr_last_mem t) 0 then le_rss1 e else tr_last_mem t).
  set (total := if Z.ltb last (le_rss2 e) then (tr_total_mem t + (le_rss2 e - last))%Z else tr_total_mem t).
  destruct (Z.ltb MAX_MEM total).
  { constructor; cbn; intros; try reflexivity; try congruence; try lia. }
  set (t1 := mkTr _ _ _ _ _ _). destruct (charge_spec (cu_cost (le_opcode e)) t1) as (H1 & H2 & H3 & H4 & H5).
  assert (E1 : tr_cost t1 = tr_cost t) by reflexivity. assert (E2 : tr_supplied t1 = tr_supplied t) by reflexivity.
  assert (E3 : tr_calls t1 = tr_calls t + 1) by reflexivity. assert (E4 : tr_started t1 = tr_started t) by reflexivity.
  rewrite H1, E1, E2 in H5. rewrite E1 in H2. rewrite E2 in H3. rewrite E3 in H4. rewrite E4, S0 in H5. rewrite H1, E1, E2. clearbody t1.
  destruct (charge (cu_cost (le_opcode e)) t1) as [r t']. cbn [fst snd] in *.
  destruct (Z.ltb_spec (tr_supplied t) (tr_cost t + cu_cost (le_opcode e))); [|destruct (Z.ltb_spec MAX_STAMPS (tr_cost t + cu_cost (le_opcode e)))]; cbn [orb is_ok andb] in *;
    (constructor; cbn [is_ok]; intros; try congruence; try lia; try discriminate).
  all: repeat split; try lia; assumption.
Qed.
(** the runtime during a computation: [n] bytes are charged *)
Record rmon (r : runtime) (ok : bool) (r' : runtime) (calls cost : Z) : Prop := mkRmon {
  rm_off : tr_started (rt_tracer r) = false -> rt_tracer r' = rt_tracer r /\ rt_writes r' = rt_writes r;
  rm_supplied : tr_supplied (rt_tracer r') = tr_supplied (rt_tracer r);
  rm_cost_le : tr_cost (rt_tracer r) <= tr_cost (rt_tracer r');
  rm_bytes_le : rt_writes r <= rt_writes r';
  rm_ok : tr_started (rt_tracer r) = true -> ok = true ->
    tr_started (rt_tracer r') = true /\
    tr_cost (rt_tracer r') = tr_cost (rt_tracer r) + cost + WRITE_COST_PER_BYTE * (rt_writes r' - rt_writes r) /\
    tr_calls (rt_tracer r') = tr_calls (rt_tracer r) + calls /\
    (tr_cost (rt_tracer r) <= tr_supplied (rt_tracer r) /\ tr_cost (rt_tracer r) <= MAX_STAMPS ->
      tr_cost (rt_tracer r') <= tr_supplied (rt_tracer r) /\ tr_cost (rt_tracer r') <= MAX_STAMPS) /\
    (tr_calls (rt_tracer r) <= MAX_CALLS -> tr_calls (rt_tracer r') <= MAX_CALLS) /\
    (rt_writes r < WRITE_MAX -> rt_writes r' < WRITE_MAX) }.
Lemma rmon_refl r b : rmon r b r 0 0.
Proof. constructor; intros; try lia; auto. all: repeat split; try assumption; lia. Qed.
Lemma rmon_same r b r' : rt_tracer r' = rt_tracer r -> rt_writes r' = rt_writes r -> rmon r b r' 0 0.
Proof. intros H1 H2. constructor; rewrite ?H1, ?H2; intros; try lia; auto. all: repeat split; try assumption; lia. Qed.
Lemma rmon_trans a b c n m n' m' x : rmon a true b n m -> rmon b x c n' m' -> rmon a x c (n + n') (m + m').
Proof.
  intros [A1 A2 A3 A4 A5] [B1 B2 B3 B4 B5]. constructor; try lia; try congruence.
  - intros H. destruct (A1 H) as [E1 E2]. rewrite <- E1 in H. destruct (B1 H) as [E3 E4]. split; congruence.
Qed.
Lemma rmon_err a b c n m n' m' : rmon a true b n m -> rmon b false c n' m' -> rmon a false c 0 0.
Proof.
  intros [A1 A2 A3 A4 A5] [B1 B2 B3 B4 B5]. constructor; try lia; try congruence.
  - intros H. destruct (A1 H) as [E1 E2]. rewrite <- E1 in H. destruct (B1 H) as [E3 E4]. split; congruence.
Qed.
Lemma line_rmon e r : rmon r (is_ok (fst (on_tracer (on_line e) r))) (snd (on_tracer (on_line e) r)) 1 (if le_contract e then cu_cost (le_opcode e) else 0).
Proof.
  unfold on_tracer. destruct (on_line_tmon e (rt_tracer r)) as [A1 A2 A3 A4 A5 A6]. destruct (on_line e (rt_tracer r)) as [x t']. cbn [fst snd] in *.
  constructor; cbn; try lia; try assumption.
  - intros H. split; [auto|reflexivity].
Qed.
Lemma deduct_spec kl vl r : tr_started (rt_tracer r) = true ->
  let n := Z.of_nat kl + Z.of_nat vl in
  rt_writes (snd (deduct_write kl vl r)) = rt_writes r + n /\
  (fst (deduct_write kl vl r) = Ok tt <->
     rt_writes r + n < WRITE_MAX /\ tr_cost (rt_tracer r) + n * WRITE_COST_PER_BYTE <= tr_supplied (rt_tracer r) /\ tr_cost (rt_tracer r) + n * WRITE_COST_PER_BYTE <= MAX_STAMPS) /\
  (fst (deduct_write kl vl r) = Ok tt -> tr_cost (rt_tracer (snd (deduct_write kl vl r))) = tr_cost (rt_tracer r) + n * WRITE_COST_PER_BYTE).
Proof.
  intros S0 n. unfold deduct_write. rewrite S0. cbv zeta. fold n. cbn [rt_writes set_rwrites rt_tracer].
  destruct (Z.ltb_spec (rt_writes r + n) WRITE_MAX) as [Hlt|Hge].
  2:{ cbn. split; [reflexivity|]. split; [split; [discriminate|lia]|discriminate]. }
  unfold on_tracer, add_cost. destruct (charge_spec (n * WRITE_COST_PER_BYTE) (rt_tracer r)) as (H1 & H2 & _).
  cbn [rt_tracer set_rwrites]. destruct (charge (n * WRITE_COST_PER_BYTE) (rt_tracer r)) as [x t']. cbn [fst snd rt_writes set_tracer set_rwrites rt_tracer] in *.
  split; [reflexivity|]. split; [|auto]. rewrite H1.
  destruct (Z.ltb_spec (tr_supplied (rt_tracer r)) (tr_cost (rt_tracer r) + n * WRITE_COST_PER_BYTE)); [|destruct (Z.ltb_spec MAX_STAMPS (tr_cost (rt_tracer r) + n * WRITE_COST_PER_BYTE))]; cbn [orb];
    (split; [intros; first [discriminate | split; [|split]; assumption] | intros; first [reflexivity | exfalso; lia]]).
Qed.
Lemma deduct_rmon kl vl r : rmon r (is_ok (fst (deduct_write kl vl r))) (snd (deduct_write kl vl r)) 0 0.
Proof.
  destruct (tr_started (rt_tracer r)) eqn:S0.
  2:{ unfold deduct_write. rewrite S0. apply rmon_refl. }
  unfold deduct_write. rewrite S0. cbv zeta. set (n := Z.of_nat kl + Z.of_nat vl). assert (Hn : 0 <= n) by (unfold n; lia). clearbody n.
  cbn [rt_writes set_rwrites]. destruct (Z.ltb_spec (rt_writes r + n) WRITE_MAX).
  2:{ constructor; cbn; intros; try lia; congruence. }
  unfold on_tracer, add_cost. destruct (charge_spec (n * WRITE_COST_PER_BYTE) (rt_tracer r)) as (H1 & H2 & H3 & H4 & H5).
  cbn [rt_tracer set_rwrites]. destruct (charge (n * WRITE_COST_PER_BYTE) (rt_tracer r)) as [x t']. cbn [fst snd] in *. unfold WRITE_COST_PER_BYTE in *.
  constructor; cbn [rt_tracer set_tracer rt_writes set_rwrites]; try lia; try congruence.
  intros _ Hx. rewrite Hx, S0 in H5. cbn in H5. split; [assumption|]. split; [unfold WRITE_COST_PER_BYTE; lia|]. split; [lia|].
  rewrite H1 in Hx. destruct (Z.ltb_spec (tr_supplied (rt_tracer r)) (tr_cost (rt_tracer r) + n * 25)); [discriminate|].
  destruct (Z.ltb_spec MAX_STAMPS (tr_cost (rt_tracer r) + n * 25)); [discriminate|]. split; [|split]; intros; try lia.
Qed.
Definition wmon (w : world) (b : bool) (w' : world) : Prop := rmon (w_rt w) b (w_rt w') 0 0.
Lemma set_wmon k v b w : wmon w (is_ok (fst (set k v b w))) (snd (set k v b w)).
Proof.
  unfold wmon. remember (set k v b w) as R eqn:ER. unfold set in ER. rewrite bind_eq in ER. cbn [lift] in ER.
  destruct (encode_kv_len k v) as [[kl vl]|e]; [|subst R; apply rmon_refl].
  rewrite bind_eq in ER. unfold on_rt in ER. pose proof (deduct_rmon kl vl (w_rt w)) as H. destruct (deduct_write kl vl (w_rt w)) as [[[]|e] r1]; [|subst R; exact H].
  unfold on_drv in ER. destruct (set_body k v b (w_drv (mkW (w_drv w) r1))) as [x v1]. subst R. cbn [fst snd w_rt is_ok] in *.
  destruct x as [[]|e]; cbn [is_ok]; [exact H|]. exact (rmon_err _ _ _ _ _ _ _ H (rmon_refl r1 false)).
Qed.
Lemma act_sets_any L a : act_sets L (fun _ _ => True) a.
Proof. destruct a; cbn; auto. Qed.
Lemma wmon_trans w b w1 w2 : wmon w true w1 -> wmon w1 b w2 -> wmon w b w2.
Proof. unfold wmon. intros H1 H2. exact (rmon_trans _ _ _ _ _ _ _ _ H1 H2). Qed.
Lemma do_act_wmon L a w : wmon w (is_ok (fst (do_act L a w))) (snd (do_act L a w)).
Proof.
  apply (do_act_rel L (fun _ _ => True) True wmon).
  - intros; apply rmon_refl.
  - exact wmon_trans.
  - intros; apply rmon_refl.
  - intros k v b w0 _. apply set_wmon.
  - intros kl vl w0. unfold wmon, on_rt. pose proof (deduct_rmon kl vl (w_rt w0)) as H. destruct (deduct_write kl vl (w_rt w0)). exact H.
  - intros; apply rmon_refl.
  - intros x w0 b. apply rmon_same; reflexivity.
  - apply act_sets_any.
  - intros _; exact I.
Qed.

(** ** The machine *)
Record mmon (s : mach) (ok : bool) (s' : mach) : Prop := mkMmon {
  mm_off : tr_started (tracer_of s) = false -> tracer_of s' = tracer_of s /\ bytes_of s' = bytes_of s;
  mm_supplied : tr_supplied (tracer_of s') = tr_supplied (tracer_of s);
  mm_cost_le : cost_of s <= cost_of s';
  mm_bytes_le : bytes_of s <= bytes_of s';
  mm_log : exists l, s_log s' = s_log s ++ l /\
    (ok = true -> tr_started (tracer_of s) = true ->
      tr_started (tracer_of s') = true /\ cost_of s' = cost_of s + line_costs l + 25 * (bytes_of s' - bytes_of s) /\
      tr_calls (tracer_of s') = tr_calls (tracer_of s) + line_count l /\ (within s -> within s')) }.
(** the same without the account of what was charged: holds with guards too *)
Record gmon (s : mach) (ok : bool) (s' : mach) : Prop := mkGmon {
  gm_off : tr_started (tracer_of s) = false -> tracer_of s' = tracer_of s /\ bytes_of s' = bytes_of s;
  gm_supplied : tr_supplied (tracer_of s') = tr_supplied (tracer_of s);
  gm_cost_le : cost_of s <= cost_of s';
  gm_bytes_le : bytes_of s <= bytes_of s' }.
Lemma rmon_within s s' ok n m l : rmon (s_rt s) ok (s_rt s') n m -> s_log s' = s_log s ++ l -> line_count l = n -> line_costs l = m -> mmon s ok s'.
Proof.
  intros [A1 A2 A3 A4 A5] HL HN HM. constructor; try assumption. exists l. split; [assumption|]. intros Ho Hs. unfold tracer_of in Hs. destruct (A5 Hs Ho) as (P1 & P2 & P3 & P4 & P5 & P6).
  unfold tracer_of, cost_of, bytes_of, tracer_of in *. unfold WRITE_COST_PER_BYTE in P2. split; [assumption|]. split; [lia|]. split; [lia|].
  unfold within, cost_of, bytes_of, tracer_of. unfold MAX_STAMPS, MAX_CALLS, WRITE_MAX in *. intros (W1 & W2 & W3 & W4). rewrite A2. destruct (P4 (conj W1 W2)). split; [|split; [|split]]; first [lia | auto].
Qed.
Lemma line_count_app a b : line_count (a ++ b) = line_count a + line_count b.
Proof. unfold line_count. rewrite filter_app, app_length. lia. Qed.
Lemma line_costs_app a b : line_costs (a ++ b) = line_costs a + line_costs b.
Proof. induction a as [|o a IH]; [reflexivity|]. cbn [app line_costs fold_right]. fold (line_costs (a ++ b)) (line_costs a). rewrite IH. lia. Qed.
Lemma no_act_count l : Forall no_act l -> line_count l = 0 /\ line_costs l = 0.
Proof.
  induction 1 as [|o l Ho _ [IH1 IH2]]; [split; reflexivity|]. unfold line_count in *. cbn [filter line_costs fold_right]. fold (line_costs l).
  destruct o; cbn in Ho |- *; try contradiction; split; lia.
Qed.
Lemma glue_rmon s s' : glue s s' -> rt_tracer (s_rt s') = rt_tracer (s_rt s) /\ rt_writes (s_rt s') = rt_writes (s_rt s).
Proof. intros [_ (c & l & H) _ _]. rewrite H. split; reflexivity. Qed.
Lemma glue_mmon s s' b : glue s s' -> mmon s b s'.
Proof.
  intros G. destruct (glue_rmon _ _ G) as [H1 H2]. destruct G as [_ _ _ (l & HL & Hl)]. destruct (no_act_count l Hl) as [N1 N2].
  eapply rmon_within; [apply (rmon_same _ b _ H1 H2)|exact HL|exact N1|exact N2].
Qed.
Lemma mmon_trans s b s1 s2 : mmon s true s1 -> mmon s1 b s2 -> mmon s b s2.
Proof.
  intros [A1 A2 A3 A4 (l & A5 & A6)] [B1 B2 B3 B4 (l' & B5 & B6)]. constructor; try lia; try congruence.
  - intros H. destruct (A1 H) as [E1 E2]. rewrite <- E1 in H. destruct (B1 H) as [E3 E4]. split; congruence.
  - exists (l ++ l'). rewrite B5, A5, app_assoc. split; [reflexivity|]. intros Hb Hs. destruct (A6 eq_refl Hs) as (P1 & P2 & P3 & P4). destruct (B6 Hb P1) as (Q1 & Q2 & Q3 & Q4).
    rewrite line_count_app, line_costs_app. split; [assumption|]. split; [lia|]. split; [lia|]. auto.
Qed.
Lemma mmon_after s b s1 s2 : mmon s b s1 -> glue s1 s2 -> mmon s b s2.
Proof.
  intros [A1 A2 A3 A4 (l & A5 & A6)] G. destruct (glue_rmon _ _ G) as [H1 H2]. destruct (glue_mmon _ _ b G) as [B1 B2 B3 B4 (l' & B5 & B6)].
  constructor; try lia; try congruence.
  - intros H. destruct (A1 H) as [E1 E2]. rewrite <- E1 in H. destruct (B1 H) as [E3 E4]. split; congruence.
  - exists (l ++ l'). rewrite B5, A5, app_assoc. split; [reflexivity|]. intros Hb Hs. destruct (A6 Hb Hs) as (P1 & P2 & P3 & P4). destruct (B6 Hb P1) as (Q1 & Q2 & Q3 & Q4).
    rewrite line_count_app, line_costs_app. split; [assumption|]. split; [lia|]. split; [lia|]. auto.
Qed.
Lemma act_mmon L a s : mmon s (is_ok (fst (act L a s))) (snd (act L a s)).
Proof.
  unfold act, on_w. pose proof (do_act_wmon L a (s_w s)) as H. unfold wmon in H. destruct (do_act L a (s_w s)) as [[v|e] w']; cbn [fst snd is_ok] in *.
  - eapply rmon_within with (l := [OAct (get_state (s_ctx s)) a]); [exact H|reflexivity..].
  - eapply rmon_within with (l := []); [exact H|symmetry; apply app_nil_r|reflexivity..].
Qed.
Lemma line_mmon e s : mmon s (is_ok (fst (line e s))) (snd (line e s)).
Proof.
  unfold line, on_w, on_rt. pose proof (line_rmon e (s_rt s)) as H. cbn [s_w note set_log]. change (w_rt (s_w s)) with (s_rt s).
  destruct (on_tracer (on_line e) (s_rt s)) as [x r']. cbn [fst snd] in *. eapply rmon_within with (l := [OLine e]); [exact H|reflexivity..|].
  cbn. destruct (le_contract e); lia.
Qed.
Lemma mmon_gmon s b s' : mmon s b s' -> gmon s b s'.
Proof. intros [A B C D _]. constructor; assumption. Qed.
Lemma gmon_trans s b s1 s2 : gmon s true s1 -> gmon s1 b s2 -> gmon s b s2.
Proof.
  intros [A1 A2 A3 A4] [B1 B2 B3 B4]. constructor; try lia; try congruence.
  intros H. destruct (A1 H) as [E1 E2]. rewrite <- E1 in H. destruct (B1 H) as [E3 E4]. split; congruence.
Qed.
Lemma gmon_b s b c s' : gmon s b s' -> gmon s c s'. Proof. intros [A B C D]; constructor; assumption. Qed.
Lemma lines_gmon ls : forall s, gmon s true (snd (foreach line ls s)).
Proof.
  induction ls as [|e ls IH]; intros s; cbn [foreach]; [exact (mmon_gmon _ _ _ (glue_mmon s s true (glue_refl s)))|].
  rewrite bind_eq. pose proof (mmon_gmon _ _ _ (line_mmon e s)) as H. destruct (line e s) as [[v|x] s1]; cbn [fst snd is_ok] in *.
  - eapply gmon_trans; [exact H|apply IH].
  - exact (gmon_b _ _ _ _ H).
Qed.
Lemma guard_gmon ls s : gmon s true (snd (guard ls s)).
Proof. unfold guard. pose proof (lines_gmon ls s) as H. destruct (foreach line ls s) as [[v|e] s1]; exact H. Qed.

(** ** All code *)
Definition anything : prog -> Prop := fun _ => True.
Lemma each_anything p : each anything p.
Proof. induction p; cbn; firstorder. Qed.
Lemma module_anything md : module_all anything md.
Proof. constructor; intros; apply each_anything. Qed.
Lemma mods_anything d : mods_all (module_all anything) d. Proof. intros n md _. apply module_anything. Qed.

Section Lifts.
  Variables (L : lang) (fuel : nat).
  Section Guardless.
    Hypothesis HL : lang_all (module_all no_guard) L.
    Ltac go thm := eapply thm with (Q := no_guard) (QM := module_all no_guard) (Rel := mmon);
      [ apply HL | apply HL | intros md H; apply H | intros md f a H; apply H | intros ??? ? H; apply H
      | intros; apply glue_mmon, glue_refl | exact mmon_trans | intros; apply glue_mmon; assumption | exact mmon_after
      | intros; apply act_mmon | intros; apply line_mmon | intros ls ok k0 s0 H; destruct H | .. ].
    Lemma run_mmon ch p s : each no_guard p -> mods_all (module_all no_guard) (s_mods s) ->
      mmon s (is_ok (fst (run L fuel ch p s))) (snd (run L fuel ch p s)) /\ mods_all (module_all no_guard) (s_mods (snd (run L fuel ch p s))).
    Proof using HL. intros H1 H2. go run_rel; assumption. Qed.
    Lemma call_mmon ch c fn args s : mods_all (module_all no_guard) (s_mods s) ->
      mmon s (is_ok (fst (call L (deeper L fuel) ch c fn args s))) (snd (call L (deeper L fuel) ch c fn args s)) /\
      mods_all (module_all no_guard) (s_mods (snd (call L (deeper L fuel) ch c fn args s))).
    Proof using HL. intros H2. go call_rel; [|assumption]. instantiate (1 := fun _ => PRet VNone). exact I. Qed.
    Lemma import_mmon kind ch n s : mods_all (module_all no_guard) (s_mods s) ->
      mmon s (is_ok (fst (plain_import L (deeper L fuel) kind ch n s))) (snd (plain_import L (deeper L fuel) kind ch n s)) /\
      mods_all (module_all no_guard) (s_mods (snd (plain_import L (deeper L fuel) kind ch n s))).
    Proof using HL. intros H2. go import_rel; assumption. Qed.
  End Guardless.
  Ltac go' thm := eapply thm with (Q := anything) (QM := module_all anything) (Rel := gmon);
      [ intros; apply module_anything | intros; apply module_anything | intros ? H; apply H | intros md f a H; apply H | intros ??? ? H; apply H
      | intros; apply mmon_gmon, glue_mmon, glue_refl | exact gmon_trans | intros; apply mmon_gmon, glue_mmon; assumption
      | intros ? b0 ? ? H G; eapply gmon_b; eapply gmon_trans; [eapply gmon_b; exact H|apply mmon_gmon, (glue_mmon _ _ b0), G]
      | intros; apply mmon_gmon, act_mmon | intros; apply mmon_gmon, line_mmon | intros; apply guard_gmon | .. ].
  Lemma call_gmon ch c fn args s : gmon s (is_ok (fst (call L (deeper L fuel) ch c fn args s))) (snd (call L (deeper L fuel) ch c fn args s)).
  Proof. go' call_rel; [instantiate (1 := fun _ => PRet VNone); exact I|apply mods_anything]. Qed.
  Lemma import_gmon kind ch n s : gmon s (is_ok (fst (plain_import L (deeper L fuel) kind ch n s))) (snd (plain_import L (deeper L fuel) kind ch n s)).
  Proof. go' import_rel. apply mods_anything. Qed.
End Lifts.
