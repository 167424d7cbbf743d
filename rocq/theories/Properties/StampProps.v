(** * C114: the stamp limit cannot be observed, and the stamps reported are enough *)
From Verif Require Import Model.Base Model.State Model.Dec Model.Time Model.Value Model.Encoder Model.Hdf5 Model.Runtime Model.Driver Model.Orm Model.Exec Model.Executor.
From Verif Require Import Spec.DecSpec Spec.OrmSpec Spec.ExecSpec Spec.DetSpec Spec.StampSpec Proofs.BaseFacts Proofs.DriverFacts Proofs.OrmFacts Proofs.ExecFacts Proofs.ExecRel Proofs.MeterFacts Proofs.TxFacts Proofs.SupplyFacts.
From Verif Require Import Properties.DriverProps Properties.OrmProps Properties.Demo Properties.MeterProps Properties.TxProps Properties.ExecProps Properties.AdmitProps.
From Coq Require Import Lia.
Local Open Scope Z_scope.

Section Swap.
  Variables (L : lang) (fuel : nat) (g : cfg) (t : txn) (n : Z).
  Notation t' := (with_stamps n t).
  Lemma adm_state s : snd (admission g t' s) = snd (admission g t s).
  Proof.
    unfold admission. change (metered g t') with (metered g t). destruct (metered g t); [|reflexivity]. rewrite !bind_eq. change (balance_key g t') with (balance_key g t).
    destruct (g_bypass_balance g).
    - cbn [ret]. rewrite !bind_eq. cbn [lift]. destruct (enough _ _ (t_stamps t')), (enough _ _ (t_stamps t)); reflexivity.
    - rewrite bind_eq. destruct (on_w (on_drv (get (balance_key g t))) s) as [[b|e] s1]; [|reflexivity]. cbn [lift]. destruct (balance_value b); [|reflexivity].
      rewrite !bind_eq. cbn [lift]. destruct (enough _ _ (t_stamps t')), (enough _ _ (t_stamps t)); reflexivity.
  Qed.
  Lemma prepare_swap s : let_in g t s -> let_in g t' s -> prepare L fuel g t' s = prepare L fuel g t s.
  Proof.
    unfold let_in. intros H1 H2. pose proof (adm_state s) as HS. unfold prepare. rewrite (bind_eq (admission g t)), (bind_eq (admission g t')).
    destruct (admission g t s) as [r1 s1], (admission g t' s) as [r2 s2]. cbn [fst snd] in *. subst. reflexivity.
  Qed.
  Lemma let_in_began tt0 s : let_in g tt0 s -> let_in g tt0 (began s).
  Proof.
    unfold let_in, admission. destruct (metered g tt0); [|auto]. destruct (g_bypass_balance g); [rewrite !bind_eq; cbn [ret]; rewrite !bind_eq; cbn [lift]; destruct (enough _ _ _); auto|].
    rewrite !bind_eq. unfold on_w, on_drv. pose proof (began_reads s (balance_key g tt0)) as HB. unfold reads_as, s_drv in HB.
    destruct (get (balance_key g tt0) (w_drv (s_w (began s)))) as [r1 v1], (get (balance_key g tt0) (w_drv (s_w s))) as [r2 v2]. cbn [fst] in HB. subst r2.
    destruct r1 as [b|e]; [|auto]. cbn [lift]. destruct (balance_value b); [|auto]. rewrite !bind_eq. cbn [lift]. destruct (enough _ _ _); [|auto]. unfold check. auto.
  Qed.
  Lemma primed_swap s : primed g t' s = (if metered g t then sup (n * 1000) (primed g t s) else primed g t s).
  Proof. unfold primed. change (metered g t') with (metered g t). destruct (metered g t); reflexivity. Qed.
  (** the second run ends like the first, but for the limit *)
  Definition like (s1 s2 : mach) : Prop := s2 = s1 \/ s2 = sup (n * 1000) s1 /\ cost_of s1 <= tr_supplied (tracer_of s1) /\ cost_of s1 <= n * 1000.
  Lemma like_stop s1 s2 : like s1 s2 -> like (stopped s1) (stopped s2).
  Proof. intros [-> | [-> H]]; [left; reflexivity|right]. split; [reflexivity|exact H]. Qed.
  Lemma like_drv s1 s2 : like s1 s2 -> s_drv s2 = s_drv s1.
  Proof. intros [-> | [-> H]]; reflexivity. Qed.
  Lemma like_read {A} (m : st driver A) s1 s2 r s1' : like s1 s2 -> on_w (on_drv m) s1 = (r, s1') -> exists s2', on_w (on_drv m) s2 = (r, s2') /\ like s1' s2'.
  Proof.
    intros HL E. destruct HL as [-> | [-> H]]; [exists s1'; split; [exact E|left; reflexivity]|]. exists (sup (n * 1000) s1').
    unfold on_w, on_drv in *. change (w_drv (s_w (sup (n * 1000) s1))) with (w_drv (s_w s1)). destruct (m (w_drv (s_w s1))) as [x v]. injection E as <- <-. split; [reflexivity|]. right. split; [reflexivity|exact H].
  Qed.
  Lemma entry_swap kw s v s2 : entry_call L fuel t kw (primed g t s) = (v, s2) -> (metered g t = true -> cost_of s2 <= t_stamps t * 1000 /\ cost_of s2 <= n * 1000) ->
    exists s3, entry_call L fuel t' kw (primed g t' s) = (v, s3) /\ like s2 s3.
  Proof.
    intros E HC. rewrite primed_swap. change (entry_call L fuel t' kw) with (entry_call L fuel t kw). destruct (metered g t) eqn:HM; [|exists s2; split; [exact E|left; reflexivity]].
    destruct (HC eq_refl) as [C1 C2]. pose proof (call_lim L (n * 1000) fuel [] (t_contract t) (t_function t) kw (primed g t s)) as [A1 A2 A3 A4].
    fold (entry_call L fuel t kw) in A1, A2, A3, A4. rewrite E in *. cbn [fst snd] in *. exists (sup (n * 1000) s2).
    assert (SU : tr_supplied (tracer_of (primed g t s)) = t_stamps t * 1000) by (unfold primed, tracer_of, s_rt, upd_r, upd_w, set_up; cbn; rewrite HM; reflexivity).
    rewrite SU in *. split; [apply A4; assumption|]. right. split; [reflexivity|]. rewrite A1. auto.
  Qed.
  Lemma attempt_swap s r s1 : let_in g t s -> let_in g t' s -> attempt L fuel g t s = (r, s1) -> (metered g t = true -> cost_of s1 <= t_stamps t * 1000 /\ cost_of s1 <= n * 1000) ->
    exists s2, attempt L fuel g t' s = (r, s2) /\ like s1 s2.
  Proof.
    intros H1 H2 E HC. pose proof (attempt_phases L fuel g t s r s1 E) as HP.
    assert (EQ : forall kw sa, prepare L fuel g t s = (Ok kw, sa) -> attempt L fuel g t' s = call_entry L fuel g t' kw sa).
    { intros kw sa Ea. rewrite attempt_eq, bind_eq, (prepare_swap s H1 H2), Ea. reflexivity. }
    assert (CE : forall kw sa, call_entry L fuel g t' kw sa = match entry_call L fuel t' kw (primed g t' sa) with
      | (Err e, s2) => (Err e, s2)
      | (Ok v, s2) => match (if t_auto t then on_w (on_drv commit) else ret tt) (stopped s2) with
                      | (Ok _, s3) => (Ok (v, dv_txn (s_drv s2), dv_events (s_drv s2)), s3) | (Err e, s3) => (Err e, s3) end end).
    { intros kw sa. unfold call_entry. rewrite bind_eq. cbn [modify]. rewrite bind_eq. cbn [modify]. fold (primed g t' sa). rewrite bind_eq. fold (entry_call L fuel t' kw).
      destruct (entry_call L fuel t' kw (primed g t' sa)) as [[v|e] s2]; [|reflexivity].
      rewrite bind_eq. cbn [gets]. rewrite bind_eq. cbn [modify]. rewrite bind_eq. cbn [modify]. rewrite bind_eq. reflexivity. }
    destruct HP as [e sb Ea|kw sa e sb Ea Eb|kw sa v sb e sc Ea Eb A Ec|kw sa v sb sc Ea Eb Ec].
    - exists sb. split; [|left; reflexivity]. rewrite attempt_eq, bind_eq, (prepare_swap s H1 H2), Ea. reflexivity.
    - rewrite (EQ _ _ Ea), CE. destruct (entry_swap _ _ _ _ Eb HC) as (s3 & E3 & HL). rewrite E3. exists s3. auto.
    - assert (HC' : metered g t = true -> cost_of sb <= t_stamps t * 1000 /\ cost_of sb <= n * 1000).
      { intros X. specialize (HC X). replace (cost_of sb) with (cost_of sc); [exact HC|]. unfold on_w, on_drv in Ec. destruct (commit _) as [y v1]. injection Ec as _ <-. reflexivity. }
      rewrite (EQ _ _ Ea), CE. destruct (entry_swap _ _ _ _ Eb HC') as (s3 & E3 & HL). rewrite E3, A.
      destruct (like_read commit _ _ _ _ (like_stop _ _ HL) Ec) as (s4 & E4 & HL4). rewrite E4. exists s4. auto.
    - assert (HC' : metered g t = true -> cost_of sb <= t_stamps t * 1000 /\ cost_of sb <= n * 1000).
      { intros X. specialize (HC X). replace (cost_of sb) with (cost_of sc); [exact HC|]. destruct (auto_same t sb _ _ Ec) as (_ & G & _). unfold cost_of, tracer_of. rewrite G. reflexivity. }
      rewrite (EQ _ _ Ea), CE. destruct (entry_swap _ _ _ _ Eb HC') as (s3 & E3 & HL). rewrite E3, (like_drv _ _ HL). destruct (t_auto t).
      + destruct (like_read commit _ _ _ _ (like_stop _ _ HL) Ec) as (s4 & E4 & HL4). rewrite E4. exists s4. auto.
      + injection Ec as <-. exists (stopped s3). split; [reflexivity|apply like_stop, HL].
  Qed.
  Lemma fee_lim k used w : lim tracer_of sup k (charge_fee L g t used w).
  Proof.
    unfold charge_fee. destruct (metered g t); [|apply lm_ret]. apply lm_bind; [apply lm_lift|]. intros fee. apply lm_bind; [apply read_lim|]. intros bal.
    apply lm_bind; [apply lm_lift|]. intros x. apply lm_bind; [apply on_w_lim, set_lim|]. intros _.
    apply lm_bind; [destruct (t_auto t); [apply read_lim|apply lm_ret]|]. intros _. apply lm_ret.
  Qed.
  (** what a transaction does after its code has run *)
  Definition settle (tx : txn) (used : Z) (r : result (pyval * dict pyval * list event)) (s : mach) : result output * mach :=
    match charge_fee L g tx used (written r) s with
    | (Err e, s) => (Err e, s)
    | (Ok w, s) => (Ok (mkOut (match r with Ok _ => 0 | Err _ => 1 end) (match r with Ok (v, _, _) => Ok v | Err e => Err e end) used w (dv_reads (s_drv s))
                          (match r with Ok (_, _, e) => e | Err _ => [] end)), wind_up s)
    end.
  Lemma transact_eq tx saved s r s1 : attempt L fuel g tx s = (r, s1) -> r <> Err EBase ->
    transact L fuel g tx saved s = settle tx (stamps_used tx (restore tx saved r s1)) r (restore tx saved r s1).
  Proof.
    intros E HN. unfold transact, settle, restore, written. rewrite E. destruct r as [[[v w] ev]|e]; [reflexivity|]. destruct e; try reflexivity. contradiction HN; reflexivity.
  Qed.
  Lemma cost_restore saved r s : cost_of (restore t saved r s) = cost_of s.
  Proof. destruct (restore_same t saved r s) as (_ & E & _). unfold cost_of, tracer_of. rewrite E. reflexivity. Qed.
  Lemma like_restore saved r s1 s2 : like s1 s2 -> like (restore t saved r s1) (restore t' saved r s2).
  Proof. intros [-> | [-> H]]; [left|right; split]; unfold restore; destruct r; first [reflexivity|exact H]. Qed.
  Lemma like_cost s1 s2 : like s1 s2 -> cost_of s2 = cost_of s1.
  Proof. intros [-> | [-> H]]; reflexivity. Qed.
  Lemma settle_like used r saved s1 s2 out s' : like (restore t saved r s1) s2 -> settle t used r (restore t saved r s1) = (Ok out, s') -> settle t' used r s2 = (Ok out, s').
  Proof.
    intros HL. unfold settle. change (charge_fee L g t') with (charge_fee L g t). destruct HL as [-> | [-> [C1 C2]]]; [auto|].
    pose proof (fee_lim (n * 1000) used (written r) (restore t saved r s1)) as [A1 A2 A3 A4]. assert (HT : tracer_of (snd (charge_fee L g t used (written r) (restore t saved r s1))) = tracer_of (restore t saved r s1)) by (apply A3, restore_off).
    rewrite HT in A4. rewrite (A4 C1 C2). destruct (charge_fee L g t used (written r) (restore t saved r s1)) as [[w|e] s3]; [|discriminate]. intros E. exact E.
  Qed.
  Lemma swap s out s' : let_in g t s -> let_in g t' s -> execute L fuel g t s = (Ok out, s') -> o_stamps out < t_stamps t -> o_stamps out <= n -> execute L fuel g t' s = (Ok out, s').
  Proof.
    intros H1 H2 E HU HN. unfold execute in *. change (refused g t') with (refused g t). destruct (refused g t); [discriminate|]. fold (began s) in *.
    set (saved := dv_writes (s_drv (fresh_log s))) in *. apply let_in_began in H1, H2.
    destruct (attempt L fuel g t (began s)) as [r s1] eqn:EA. assert (HB : r <> Err EBase) by (intros ->; unfold transact in E; rewrite EA in E; discriminate E).
    rewrite (transact_eq t saved _ _ _ EA HB) in E.
    assert (EU : o_stamps out = stamps_used t (restore t saved r s1)).
    { unfold settle in E. destruct (charge_fee _ _ _ _ _ _) as [[w|e] s3]; [|discriminate]. injection E as <- _. reflexivity. }
    assert (CU : cost_of s1 / 1000 + 5 = o_stamps out).
    { rewrite EU in *. unfold stamps_used in *. fold (tracer_of (restore t saved r s1)) in *. fold (cost_of (restore t saved r s1)) in *. rewrite cost_restore in *.
      destruct (Z.ltb_spec (t_stamps t) (cost_of s1 / 1000 + 5)); lia. }
    assert (HC : cost_of s1 <= t_stamps t * 1000 /\ cost_of s1 <= n * 1000).
    { pose proof (Z.mul_succ_div_gt (cost_of s1) 1000). lia. }
    destruct (attempt_swap (began s) r s1 H1 H2 EA (fun _ => HC)) as (s2 & EA2 & HL). rewrite (transact_eq t' saved _ _ _ EA2 HB).
    assert (US : stamps_used t' (restore t' saved r s2) = stamps_used t (restore t saved r s1)).
    { unfold stamps_used. fold (tracer_of (restore t saved r s1)) (tracer_of (restore t' saved r s2)). fold (cost_of (restore t saved r s1)) (cost_of (restore t' saved r s2)).
      rewrite (like_cost _ _ (like_restore saved r _ _ HL)), cost_restore, CU. change (t_stamps t') with n.
      destruct (Z.ltb_spec n (o_stamps out)); [lia|]. destruct (Z.ltb_spec (t_stamps t) (o_stamps out)); lia. }
    rewrite US. eapply settle_like; [apply like_restore, HL|exact E].
  Qed.
End Swap.
(** If a transaction reports fewer stamps than its limit, then with any other limit that is at least what was reported, and that the sender is let in
    with, it reports and does exactly the same: result, stamps, writes, reads, events, and the machine afterwards.
    Both conditions are needed: C114_cut_off_differs, C114_not_let_in_differs. *)
Theorem C114_limit_unobservable L fuel g t s out s' n : let_in g t s -> execute L fuel g t s = (Ok out, s') -> o_stamps out < t_stamps t ->
  o_stamps out <= n -> let_in g (with_stamps n t) s -> execute L fuel g (with_stamps n t) s = (Ok out, s').
Proof. intros H1 HE HU HN H2. exact (swap L fuel g t n s out s' H1 H2 HE HU HN). Qed.
(** In particular, for a sender with enough in the account, with any lower limit down to the stamps reported *)
Theorem C114_lower_limit L fuel g t s out s' n b a : metered g t = true -> g_bypass_balance g = false -> reads_as s (balance_key g t) = Ok b -> amount b a -> 0 <= a ->
  0 < t_rate t <= 10 ^ 29 -> 0 <= t_stamps t <= 10 ^ 29 -> affords a (t_rate t) (t_stamps t) ->
  execute L fuel g t s = (Ok out, s') -> o_stamps out < t_stamps t -> 0 <= n -> o_stamps out <= n <= t_stamps t ->
  execute L fuel g (with_stamps n t) s = (Ok out, s').
Proof.
  intros HM HB HR HA H0 HRt HSt HAf HE HU H0n HN. assert (HAn : affords a (t_rate t) n) by (unfold affords, ONE in *; lia).
  refine (C114_limit_unobservable L fuel g t s out s' n _ HE HU (proj1 HN) _).
  - exact (proj1 (C94_check_partial g t s b a HM HB HR HA H0 HRt HSt) HAf).
  - refine (proj1 (C94_check_partial g (with_stamps n t) s b a HM HB HR HA H0 HRt _) HAn). cbn. lia.
Qed.

(** ** Within the limit at the end of what succeeds *)
Definition capped (s : mach) (ok : bool) (s' : mach) : Prop :=
  tr_supplied (tracer_of s') = tr_supplied (tracer_of s) /\
  (ok = true -> cost_of s <= tr_supplied (tracer_of s) /\ cost_of s <= MAX_STAMPS -> cost_of s' <= tr_supplied (tracer_of s) /\ cost_of s' <= MAX_STAMPS).
Lemma capped_same s b s' : tracer_of s' = tracer_of s -> capped s b s'.
Proof. intros E. unfold capped, cost_of. rewrite E. auto. Qed.
Lemma capped_rmon s b s' x y : rmon (s_rt s) b (s_rt s') x y -> capped s b s'.
Proof.
  intros [A1 A2 A3 A4 A5]. split; [exact A2|]. intros -> H. destruct (tr_started (rt_tracer (s_rt s))) eqn:S0.
  - destruct (A5 eq_refl eq_refl) as (_ & _ & _ & P & _). exact (P H).
  - destruct (A1 eq_refl) as [E _]. unfold cost_of, tracer_of in *. rewrite E. exact H.
Qed.
Lemma capped_trans s b s1 s2 : capped s true s1 -> capped s1 b s2 -> capped s b s2.
Proof. intros [A1 A2] [B1 B2]. split; [congruence|]. intros -> H. rewrite <- A1. apply B2; [reflexivity|]. rewrite A1. auto. Qed.
Lemma capped_glue s s' b : glue s s' -> capped s b s'.
Proof. intros G. apply capped_same. exact (proj1 (glue_rmon _ _ G)). Qed.
Lemma capped_after s b s1 s2 : capped s b s1 -> glue s1 s2 -> capped s b s2.
Proof. intros [A1 A2] G. pose proof (proj1 (glue_rmon _ _ G)) as E. unfold capped, cost_of, tracer_of in *. rewrite E. auto. Qed.
Lemma capped_act L a s : capped s (is_ok (fst (act L a s))) (snd (act L a s)).
Proof.
  unfold act, on_w. pose proof (do_act_wmon L a (s_w s)) as H. unfold wmon in H. destruct (do_act L a (s_w s)) as [[v|e] w']; cbn [fst snd is_ok] in *; (eapply capped_rmon; exact H).
Qed.
Lemma capped_line e s : capped s (is_ok (fst (line e s))) (snd (line e s)).
Proof.
  unfold line, on_w, on_rt. pose proof (line_rmon e (s_rt s)) as H. cbn [s_w note set_log]. change (w_rt (s_w s)) with (s_rt s).
  destruct (on_tracer (on_line e) (s_rt s)) as [x r']. cbn [fst snd] in *. (eapply capped_rmon; exact H).
Qed.
Lemma lib_line_cost e s : le_contract e = false -> tr_supplied (tracer_of (snd (line e s))) = tr_supplied (tracer_of s) /\ cost_of (snd (line e s)) = cost_of s.
Proof.
  intros HE. unfold line, on_w, on_rt, cost_of, tracer_of, s_rt. cbn [s_w note set_log]. unfold on_tracer, on_line, trace_line. rewrite HE.
  destruct (tr_started (rt_tracer (w_rt (s_w s)))); [|split; reflexivity]. cbn [tr_calls tr_cost]. destruct (Z.ltb MAX_CALLS _); split; reflexivity.
Qed.
Lemma capped_guard ls ok k s : lib_guard (PGuard ls ok k) -> capped s true (snd (guard ls s)).
Proof.
  cbn. intros H. assert (HH : forall s, tr_supplied (tracer_of (snd (foreach line ls s))) = tr_supplied (tracer_of s) /\ cost_of (snd (foreach line ls s)) = cost_of s).
  { clear s. induction H as [|e ls He _ IH]; intros s; cbn [foreach]; [auto|]. rewrite bind_eq. destruct (lib_line_cost e s He) as [E1 E2].
    destruct (line e s) as [[v|x] s1]; cbn [fst snd] in *; [|auto]. destruct (IH s1) as [E3 E4]. split; congruence. }
  destruct (HH s) as [E1 E2]. unfold guard. destruct (foreach line ls s) as [[v|e] s1]; cbn [fst snd] in *; unfold capped; rewrite E1, E2; auto.
Qed.
Lemma call_capped L fuel ch c fn args s : lang_all (module_all lib_guard) L -> mods_all (module_all lib_guard) (s_mods s) ->
  capped s (is_ok (fst (call L (deeper L fuel) ch c fn args s))) (snd (call L (deeper L fuel) ch c fn args s)).
Proof.
  intros HL HM. eapply call_rel with (Q := lib_guard) (QM := module_all lib_guard) (Rel := capped) (k := fun _ => PRet VNone);
    [ apply HL | apply HL | intros md H; apply H | intros md f a H; apply H | intros ??? ? H; apply H
    | intros; apply capped_glue, glue_refl | exact capped_trans | intros; apply capped_glue; assumption | exact capped_after
    | intros; apply capped_act | intros; apply capped_line | intros; eapply capped_guard; eassumption | exact I | exact HM ].
Qed.
Definition kept (s : mach) (b : bool) (s' : mach) : Prop := mods_all (module_all lib_guard) (s_mods s) -> mods_all (module_all lib_guard) (s_mods s').
Lemma prepare_kept L fuel g t s : lang_all (module_all lib_guard) L -> kept s (is_ok (fst (prepare L fuel g t s))) (snd (prepare L fuel g t s)).
Proof.
  intros HL. apply (prepare_rel L fuel g t kept); unfold kept.
  - auto.
  - auto.
  - intros x y b G EM _ _ Hm. rewrite EM. exact Hm.
  - intros x b e Hm. exact Hm.
  - intros x Hm. eapply import_rel with (Q := lib_guard) (QM := module_all lib_guard) (Rel := fun _ _ _ => True);
      [ apply HL | apply HL | intros md H; apply H | intros md f a H; apply H | intros ??? ? H; apply H | auto.. ].
Qed.
Lemma succeeded_within L fuel g t s v s1 : lang_all (module_all lib_guard) L -> mods_all (module_all lib_guard) (s_mods s) -> metered g t = true -> 0 <= t_stamps t ->
  attempt L fuel g t s = (Ok v, s1) -> cost_of s1 <= t_stamps t * 1000.
Proof.
  intros HL HM HG HT E. pose proof (prepare_kept L fuel g t s HL HM) as HK. apply attempt_phases in E. inversion E as [| | |kw sa v' sb sc Ea Eb Ec X1 X2]; subst. rewrite Ea in HK. cbn [snd] in HK.
  pose proof (call_capped L fuel [] (t_contract t) (t_function t) kw (primed g t sa) HL HK) as [_ HC]. fold (entry_call L fuel t kw) in HC. rewrite Eb in HC. cbn [fst snd is_ok] in HC.
  assert (SU : tr_supplied (tracer_of (primed g t sa)) = t_stamps t * 1000) by (unfold primed, tracer_of, s_rt, upd_r, upd_w, set_up; cbn; rewrite HG; reflexivity).
  assert (CO : cost_of (primed g t sa) = 0) by (unfold primed, cost_of, tracer_of, s_rt, upd_r, upd_w, set_up; cbn; rewrite HG; reflexivity).
  rewrite SU, CO in HC. destruct (HC eq_refl) as [A _]; [split; [lia|discriminate]|].
  destruct (auto_same t sb _ _ Ec) as (_ & G & _). unfold cost_of, tracer_of in *. rewrite G. exact A.
Qed.
Lemma settle_out L g t used r s out s' : settle L g t used r s = (Ok out, s') -> tr_started (rt_tracer (s_rt s)) = false ->
  o_status out = match r with Ok _ => 0 | Err _ => 1 end /\ o_result out = match r with Ok (v, _, _) => Ok v | Err e => Err e end /\
  o_events out = match r with Ok (_, _, e) => e | Err _ => [] end /\ o_stamps out = used /\ (forall k, k <> balance_key g t -> dget k (o_writes out) = dget k (written r)).
Proof.
  unfold settle. intros E HO. destruct (charge_fee L g t used (written r) s) as [[w|e] s3] eqn:EF; [|discriminate]. injection E as <- _. cbn [o_status o_result o_events o_stamps o_writes].
  repeat (split; [reflexivity|]). destruct (charge_fee_inv L g t _ _ _ _ _ HO EF) as (_ & _ & _ & _ & _ & HC).
  intros k HK. destruct HC as [(_ & _ & ->)|(_ & [fee bal x reads Hr Hfee Hbal Hx Hw Hd])]; [reflexivity|]. rewrite Hw, dget_dset. destruct (str_eqb_spec k (balance_key g t)); [contradiction|reflexivity].
Qed.
(** With a higher limit, what succeeded (even if the report was cut off at the limit) succeeds with the same result, events and writes; only the stamps,
    and so the fee taken from the sender's balance, may rise. *)
Theorem C114_higher_limit L fuel g t s out s' n out' s'' : lang_all (module_all lib_guard) L -> mods_all (module_all lib_guard) (s_mods s) ->
  0 <= t_stamps t <= n -> let_in g t s -> let_in g (with_stamps n t) s ->
  execute L fuel g t s = (Ok out, s') -> o_status out = 0 -> execute L fuel g (with_stamps n t) s = (Ok out', s'') ->
  o_status out' = 0 /\ o_result out' = o_result out /\ o_events out' = o_events out /\ o_stamps out <= o_stamps out' /\
  (forall k, k <> balance_key g t -> dget k (o_writes out') = dget k (o_writes out)).
Proof.
  intros HL HM HN H1 H2 E HS E'. unfold execute in *. change (refused g (with_stamps n t)) with (refused g t) in E'. destruct (refused g t); [discriminate|]. fold (began s) in *.
  set (saved := dv_writes (s_drv (fresh_log s))) in *. apply let_in_began in H1, H2.
  destruct (attempt L fuel g t (began s)) as [r s1] eqn:EA. assert (HB : r <> Err EBase) by (intros ->; unfold transact in E; rewrite EA in E; discriminate E).
  rewrite (transact_eq L fuel g t saved _ _ _ EA HB) in E. destruct (settle_out _ _ _ _ _ _ _ _ E (restore_off t saved r s1)) as (A1 & A2 & A3 & A4 & A5).
  destruct r as [v|e]; [|rewrite A1 in HS; discriminate HS].
  assert (HC : metered g t = true -> cost_of s1 <= t_stamps t * 1000 /\ cost_of s1 <= n * 1000).
  { intros HG. pose proof (succeeded_within L fuel g t (began s) v s1 HL HM HG (proj1 HN) EA). lia. }
  destruct (attempt_swap L fuel g t n (began s) _ s1 H1 H2 EA HC) as (s2 & EA2 & HK). rewrite (transact_eq L fuel g (with_stamps n t) saved _ _ _ EA2 HB) in E'.
  destruct (settle_out _ _ _ _ _ _ _ _ E' (restore_off (with_stamps n t) saved (Ok v) s2)) as (B1 & B2 & B3 & B4 & B5).
  split; [congruence|]. split; [congruence|]. split; [congruence|]. split.
  - rewrite A4, B4. unfold stamps_used. fold (tracer_of (restore t saved (Ok v) s1)) (tracer_of (restore (with_stamps n t) saved (Ok v) s2)).
    fold (cost_of (restore t saved (Ok v) s1)) (cost_of (restore (with_stamps n t) saved (Ok v) s2)). rewrite (like_cost _ _ _ (like_restore t n saved (Ok v) _ _ HK)).
    change (t_stamps (with_stamps n t)) with n. destruct (Z.ltb_spec (t_stamps t) (cost_of (restore t saved (Ok v) s1) / 1000 + 5)), (Z.ltb_spec n (cost_of (restore t saved (Ok v) s1) / 1000 + 5)); lia.
  - intros k Hk. rewrite A5, B5 by exact Hk. reflexivity.
Qed.

(** ** The exceptions, and an instance *)
(** three lines of 1000 units and a write: 3200 units, reported as 3 + 5 stamps *)
Definition step_prog : prog := PLine (code_line 85) (PLine (code_line 85) (PLine (code_line 85) (put "con_m" "x" (VInt 5) (PRet (VInt 1))))).
Definition step_lang : lang := demo [(u "con_m", only_f (u "con_m") step_prog)].
Definition step_start : mach := idle_mach (deployed (u "con_m") (u "con_m") VNone ++ funded "bob" 100).
Definition t_step : txn := call_of "bob" "con_m" "f".
Definition told_of (L : lang) (g : cfg) (t : txn) (s : mach) (n : Z) : option (Z * Z) := match fst (execute L 10 g (with_stamps n t) s) with Ok o => Some (o_status o, o_stamps o) | Err _ => None end.
Notation told := (told_of step_lang cfg0 t_step step_start).
Lemma told_lower L g t s b a m n st used : metered g t = true -> g_bypass_balance g = false -> reads_as s (balance_key g t) = Ok b -> amount b a -> 0 <= a ->
  0 < t_rate t <= 10 ^ 29 -> 0 <= m <= 10 ^ 29 -> affords a (t_rate t) m -> used < m -> 0 <= n -> used <= n <= m -> told_of L g t s m = Some (st, used) -> told_of L g t s n = Some (st, used).
Proof.
  intros H1 H2 H3 H4 H5 H6 H7 H8 H9 H10 H11. unfold told_of. destruct (execute L 10 g (with_stamps m t) s) as [[o|e] s'] eqn:E; [|discriminate]. cbn [fst]. intros X. assert (EU : o_stamps o = used) by congruence.
  pose proof (C114_lower_limit L 10 g (with_stamps m t) s o s' n b a H1 H2 H3 H4 H5 H6 H7 H8 E) as P. change (t_stamps (with_stamps m t)) with m in P. rewrite EU in P.
  specialize (P H9 H10 H11). change (with_stamps n (with_stamps m t)) with (with_stamps n t) in P. rewrite P. exact X.
Qed.
(** The stamps reported, and paid for, depend on the limit: with a limit of 4 the same work is reported, and charged, as 4 stamps *)
Theorem C114_cut_off_differs : let_in cfg0 (with_stamps 4 t_step) step_start /\ let_in cfg0 t_step step_start /\ told 4 = Some (0, 4) /\ told 1000 = Some (0, 8).
Proof. split; [vm_compute; reflexivity|]. split; [vm_compute; reflexivity|]. split; vm_compute; reflexivity. Qed.
(** A limit the sender has not the balance for makes what succeeds with a lower limit fail, although the fee would be the same *)
Theorem C114_not_let_in_differs : told 1000 = Some (0, 8) /\ told 2000 = Some (0, 8) /\ told 2001 = Some (1, 5) /\ ~ let_in cfg0 (with_stamps 2001 t_step) step_start.
Proof. split; [vm_compute; reflexivity|]. split; [vm_compute; reflexivity|]. split; [vm_compute; reflexivity|]. vm_compute. discriminate. Qed.
(** The limits 8 to 2000 all give the report of the limit 1000; 4 is the lowest limit with which the call succeeds *)
Example C114_example : (forall n, 8 <= n <= 2000 -> told n = Some (0, 8)) /\ told 4 = Some (0, 4) /\ told 3 = Some (1, 3) /\
  lang_all (module_all lib_guard) step_lang /\ mods_all (module_all lib_guard) (s_mods step_start).
Proof.
  split; [|split; [vm_compute; reflexivity|]; split; [vm_compute; reflexivity|]; refine (demo_all lib_guard "con_m" step_prog _ I I _); cbn; repeat split].
  intros n Hn. assert (H0 : told 2000 = Some (0, 8)) by (vm_compute; reflexivity).
  assert (RB : reads_as step_start (balance_key cfg0 t_step) = Ok (VInt 100)) by (vm_compute; reflexivity).
  assert (AM : amount (VInt 100) (100 * ONE)) by (cbn; split; [reflexivity|split; vm_compute; [reflexivity|discriminate]]).
  assert (RT : 0 < t_rate t_step <= 10 ^ 29) by (cbn; lia). assert (AF : affords (100 * ONE) (t_rate t_step) 2000) by (unfold affords, ONE; cbn; lia).
  assert (N1 : 0 <= 100 * ONE) by (unfold ONE; lia). assert (N2 : 0 <= 2000 <= 10 ^ 29) by lia. assert (N3 : 8 < 2000) by lia. assert (N4 : 0 <= n) by lia.
  pose proof (told_lower step_lang cfg0 t_step step_start (VInt 100) (100 * ONE) 2000 n 0 8) as P. specialize (P eq_refl eq_refl). specialize (P RB AM N1 RT N2 AF N3 N4 Hn).
  exact (P H0).
Qed.
