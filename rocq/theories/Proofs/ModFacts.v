(** * Modules loaded by a transaction are listed for removal *)
From Verif Require Import Model.Base Model.State Model.Dec Model.Time Model.Value Model.Encoder Model.Hdf5 Model.Runtime Model.Driver Model.Orm Model.Exec Model.Executor.
From Verif Require Import Spec.OrmSpec Spec.ExecSpec Proofs.BaseFacts Proofs.DriverFacts Proofs.OrmFacts Proofs.ExecFacts Proofs.ExecRel Proofs.TxFacts.

(** ** Nothing but loading a module changes the list of loaded modules *)
Definition wl {A} (m : st world A) : Prop := forall w, rt_loaded (w_rt (snd (m w))) = rt_loaded (w_rt w).
Lemma wl_bind {A B} (m : st world A) (k : A -> st world B) : wl m -> (forall a, wl (k a)) -> wl (bind m k).
Proof. intros Hm Hk w. rewrite bind_eq. specialize (Hm w). destruct (m w) as [[a|e] w1]; cbn [snd] in *; [rewrite Hk|]; exact Hm. Qed.
Lemma wl_ret {A} (a : A) : wl (ret a). Proof. intros w; reflexivity. Qed.
Lemma wl_raise {A} e : wl (raise e : st world A). Proof. intros w; reflexivity. Qed.
Lemma wl_lift {A} (r : result A) : wl (lift r). Proof. intros w; reflexivity. Qed.
Lemma wl_gets {A} (f : world -> A) : wl (gets f). Proof. intros w; reflexivity. Qed.
Lemma wl_drv {A} (m : st driver A) : wl (on_drv m). Proof. intros w. unfold on_drv. destruct (m (w_drv w)). reflexivity. Qed.
Lemma wl_deduct k v : wl (on_rt (deduct_write k v)).
Proof.
  intros w. unfold on_rt, deduct_write. destruct (tr_started _); [|reflexivity]. cbv zeta. destruct (Z.ltb _ _); [|reflexivity]. unfold on_tracer. destruct (add_cost _ _). reflexivity.
Qed.
Lemma wl_foreach {A} (f : A -> st world unit) l : (forall a, wl (f a)) -> wl (foreach f l).
Proof. intros H. induction l as [|a l IH]; cbn [foreach]; [apply wl_ret|]. apply wl_bind; [apply H|]. intros _. exact IH. Qed.
Lemma wl_set k x b : wl (set k x b).
Proof. unfold set. apply wl_bind; [apply wl_lift|]. intros [kl vl]. apply wl_bind; [apply wl_deduct|]. intros _. apply wl_drv. Qed.
Lemma wl_act L a : wl (do_act L a).
Proof.
  destruct a as [x|x v|h k|h k v|h l|h l|e p d|salt|d|n x|n x v|nm code o now dev]; cbn [do_act].
  - unfold var_get. apply wl_bind; [apply wl_drv|intros; apply wl_ret].
  - apply wl_bind; [|intros; apply wl_ret]. unfold var_set. apply wl_bind; [|intros; apply wl_set].
    destruct (v_type x); [|apply wl_ret]. destruct (is_none v); [apply wl_ret|]. apply wl_bind; [apply wl_lift|intros; apply wl_lift].
  - unfold hash_get. apply wl_bind; [apply wl_lift|]. intros s. apply wl_bind; [apply wl_drv|]. intros y.
    destruct (if is_none y then h_default h else y); try apply wl_ret; (apply wl_bind; [apply wl_lift|intros; apply wl_ret]).
  - apply wl_bind; [|intros; apply wl_ret]. unfold hash_set. apply wl_bind; [apply wl_lift|intros; apply wl_set].
  - apply wl_bind; [|intros; apply wl_ret]. unfold hash_all. apply wl_bind; [apply wl_lift|]. intros p. apply wl_drv.
  - apply wl_bind; [|intros; apply wl_ret]. unfold hash_clear. apply wl_bind; [|intros; apply wl_foreach; intros; apply wl_set].
    unfold hash_items. apply wl_bind; [apply wl_lift|]. intros p. apply wl_drv.
  - apply wl_bind.
    + unfold log_decl. apply wl_bind; [apply wl_gets|]. intros sg. apply wl_bind; [apply wl_lift|]. intros _. apply wl_bind; [apply wl_lift|]. intros _.
      apply wl_bind; [|intros; apply wl_ret]. apply wl_foreach. intros q. destruct (p_types (snd q)); [apply wl_lift|apply wl_raise].
    + intros ev. apply wl_bind; [|intros; apply wl_ret]. unfold log_emit. apply wl_bind; [apply wl_gets|]. intros cs.
      assert (HP : forall params kv, wl (pay_arg params kv)).
      { intros params kv. unfold pay_arg. apply wl_bind; [apply wl_lift|]. intros q. apply wl_bind; [apply wl_lift|]. intros b. apply wl_bind; [apply wl_lift|]. intros _. apply wl_bind; [apply wl_lift|]. intros [kl vl]. apply wl_deduct. }
      apply wl_bind; [apply wl_lift|]. intros _. apply wl_bind; [apply wl_foreach; intros; apply wl_lift|]. intros _.
      apply wl_bind; [apply wl_foreach; intros; apply wl_lift|]. intros _. apply wl_bind; [apply wl_lift|]. intros ix. apply wl_bind; [apply wl_lift|]. intros dt.
      apply wl_bind; [apply wl_foreach; intros; apply HP|]. intros _. apply wl_bind; [apply wl_foreach; intros; apply HP|]. intros _.
      intros w. reflexivity.
  - unfold do_seed. apply wl_bind; [apply wl_gets|]. intros r. apply wl_bind; [apply wl_lift|]. intros s. apply wl_bind; [|intros; apply wl_ret]. intros w. reflexivity.
  - unfold do_random. apply wl_bind; [apply wl_gets|]. intros r. destruct (rt_seeded r) as [[s ds]|]; [|apply wl_raise].
    apply wl_bind; [|intros; apply wl_lift]. intros w. reflexivity.
  - apply wl_drv.
  - apply wl_bind; [|intros; apply wl_ret]. apply wl_set.
  - apply wl_bind; [|intros; apply wl_ret]. unfold set_contract. apply wl_bind; [apply wl_drv|]. intros c. destruct (is_none c); [|apply wl_ret]. apply wl_bind; [apply wl_lift|]. intros b. do 4 (apply wl_bind; [apply wl_set|intros _]). apply wl_set.
Qed.

(** ** What is in sys.modules afterwards and was not there before is listed *)
Record surv (s s' : mach) : Prop := mkSurv {
  sv_list : incl (rt_loaded (s_rt s)) (rt_loaded (s_rt s'));
  sv_mods : forall n o, dget n (s_mods s') = Some o -> In n (rt_loaded (s_rt s')) \/ dget n (s_mods s) = Some o }.
Lemma surv_same s s' : s_mods s' = s_mods s -> rt_loaded (s_rt s') = rt_loaded (s_rt s) -> surv s s'.
Proof. intros H1 H2. constructor; [rewrite H2; intros x; auto|]. intros n o. rewrite H1. auto. Qed.
Lemma surv_trans a b c : surv a b -> surv b c -> surv a c.
Proof. intros [A1 A2] [B1 B2]. constructor; [intros x Hx; auto|]. intros n o E. destruct (B2 n o E) as [H|H]; [auto|]. destruct (A2 n o H); auto. Qed.
Definition sv {A} (m : st mach A) : Prop := forall s, surv s (snd (m s)).
Lemma sv_same {A} (m : st mach A) : (forall s, s_mods (snd (m s)) = s_mods s) -> (forall s, rt_loaded (s_rt (snd (m s))) = rt_loaded (s_rt s)) -> sv m.
Proof. intros H1 H2 s. apply surv_same; auto. Qed.
Lemma sv_bind {A B} (m : st mach A) (k : A -> st mach B) : sv m -> (forall a, sv (k a)) -> sv (bind m k).
Proof. intros Hm Hk s. rewrite bind_eq. specialize (Hm s). destruct (m s) as [[a|e] s1]; cbn [snd] in *; [eapply surv_trans; [exact Hm|apply Hk]|exact Hm]. Qed.
Lemma sv_ret {A} (a : A) : sv (ret a). Proof. apply sv_same; reflexivity. Qed.
Lemma sv_raise {A} e : sv (raise e : st mach A). Proof. apply sv_same; reflexivity. Qed.
Lemma sv_lift {A} (r : result A) : sv (lift r). Proof. apply sv_same; reflexivity. Qed.
Lemma sv_gets {A} (f : mach -> A) : sv (gets f). Proof. apply sv_same; reflexivity. Qed.
Lemma sv_world {A} (m : st world A) : wl m -> sv (on_w m).
Proof. intros H. apply sv_same; intros s; [apply on_w_mods|]. specialize (H (s_w s)). unfold on_w. destruct (m (s_w s)). exact H. Qed.
Lemma sv_modify (f : mach -> mach) : (forall s, s_mods (f s) = s_mods s) -> (forall s, rt_loaded (s_rt (f s)) = rt_loaded (s_rt s)) -> sv (modify f).
Proof. intros H1 H2. apply sv_same; [exact H1|exact H2]. Qed.
Lemma sv_act L a : sv (act L a).
Proof. intros s. pose proof (sv_world _ (wl_act L a) s) as H. unfold act. destruct (on_w (do_act L a) s) as [[v|e] s1]; cbn [snd] in *; [|exact H]. eapply surv_trans; [exact H|]. apply surv_same; reflexivity. Qed.
Lemma sv_line e : sv (line e).
Proof.
  intros s. unfold line. eapply surv_trans; [apply surv_same with (s' := note (OLine e) s); reflexivity|]. apply sv_world. intros w. unfold on_rt, on_tracer. destruct (on_line e (rt_tracer (w_rt w))). reflexivity.
Qed.
Lemma sv_lines ls : sv (foreach line ls).
Proof. induction ls as [|e ls IH]; cbn [foreach]; [apply sv_ret|]. apply sv_bind; [apply sv_line|intros _; exact IH]. Qed.
Lemma sv_guard ls : sv (guard ls).
Proof. intros s. unfold guard. pose proof (sv_lines ls s) as H. destruct (foreach line ls s) as [[v|e] s1]; exact H. Qed.
Lemma sv_enter c : sv (enter c).
Proof.
  unfold enter. apply sv_bind; [apply sv_gets|]. intros b. destruct b; [|apply sv_modify; reflexivity]. apply sv_bind; [apply sv_world, wl_drv|]. intros o. apply sv_bind; [apply sv_gets|]. intros cs.
  apply sv_bind; [apply sv_modify; reflexivity|]. intros _. destruct (_ || _)%bool; [apply sv_ret|apply sv_raise].
Qed.
Lemma sv_export chn n (m : st mach pyval) : sv m -> sv (with_export chn n m).
Proof.
  intros Hm s. unfold with_export. pose proof (sv_enter n s) as H. destruct (enter n s) as [[[]|e] s1]; cbn [snd] in *; [|exact H].
  set (s2 := note _ s1). specialize (Hm s2). destruct (m s2) as [r s3]; cbn [snd] in *. eapply surv_trans; [exact H|]. eapply surv_trans; [apply surv_same with (s' := s2); reflexivity|]. eapply surv_trans; [exact Hm|]. apply surv_same; reflexivity.
Qed.
Section Level.
  Variables (L : lang) (RR : list pystr -> prog -> st mach pyval).
  Hypothesis HRR : forall chn p, sv (RR chn p).
  Lemma sv_load chn n : sv (load L RR chn n).
  Proof using HRR.
    intros s. unfold load. set (s0 := set_mods (dset n None (s_mods s)) s).
    assert (H : surv s0 (snd ((let! md := fetch L n in RR (n :: chn) (m_init md);; ret md) s0))).
    { apply (sv_bind (fetch L n)); [|intros md; apply sv_bind; [apply HRR|intros; apply sv_ret]]. unfold fetch. apply sv_bind; [apply sv_world, wl_drv|]. intros x. apply sv_bind; [apply sv_lift|intros; apply sv_lift]. }
    destruct ((let! md := fetch L n in RR (n :: chn) (m_init md);; ret md) s0) as [[md|e] s1]; cbn [snd] in *; destruct H as [H1 H2]; constructor.
    - cbn. intros x Hx. apply in_or_app. left. apply H1. exact Hx.
    - cbn. intros m o E. rewrite dget_dset in E. destruct (str_eqb_spec m n) as [->|Hn]; [left; apply in_or_app; right; left; reflexivity|].
      destruct (H2 m o E) as [HI|HI]; [left; apply in_or_app; left; exact HI|right]. unfold s0 in HI. cbn in HI. rewrite dget_dset_other in HI by exact Hn. exact HI.
    - exact H1.
    - cbn. intros m o E. rewrite dget_ddel in E. destruct (str_eqb_spec m n) as [->|Hn]; [discriminate|].
      destruct (H2 m o E) as [HI|HI]; [left; exact HI|right]. unfold s0 in HI. cbn in HI. rewrite dget_dset_other in HI by exact Hn. exact HI.
  Qed.
  Lemma sv_imported kd n : sv (imported kd n). Proof. apply sv_modify; reflexivity. Qed.
  Lemma sv_hosted n : sv (hosted n). Proof. apply sv_modify; reflexivity. Qed.
  Lemma sv_plain kd chn n : sv (plain_import L RR kd chn n).
  Proof using HRR.
    unfold plain_import. apply sv_bind; [apply sv_gets|]. intros there. destruct there; [apply sv_imported|]. destruct (l_sysmod L n); [apply sv_bind; [apply sv_hosted|intros; apply sv_imported]|].
    apply sv_bind; [apply sv_world, wl_drv|]. intros x. destruct (negb (is_none x)); [apply sv_bind; [apply sv_load|intros; apply sv_imported]|].
    destruct (l_host L n); [apply sv_bind; [apply sv_hosted|intros; apply sv_imported]|apply sv_raise].
  Qed.
  Lemma sv_import kd chn n : sv (import L RR kd chn n).
  Proof using HRR.
    destruct kd; cbn [import].
    - apply sv_bind; [apply sv_gets|]. intros r. destruct r; [|apply sv_plain]. unfold restricted_import. apply sv_bind; [apply sv_gets|]. intros there. destruct there; [apply sv_imported|].
      destruct (l_sysmod L n); [apply sv_raise|]. apply sv_bind; [apply sv_world, wl_drv|]. intros x. destruct (negb (is_none x)); [apply sv_bind; [apply sv_load|intros; apply sv_imported]|apply sv_raise].
    - unfold lib_import. apply sv_bind; [apply sv_lift|]. intros _. apply sv_bind; [apply sv_lift|]. intros _. apply sv_bind; [destruct (l_stdlib L n); [apply sv_raise|apply sv_ret]|]. intros _.
      apply sv_bind; [destruct (startswith n (u "_")); [apply sv_raise|apply sv_ret]|]. intros _. apply sv_bind; [apply sv_world, wl_drv|]. intros x. destruct (is_none x); [apply sv_raise|apply sv_plain].
  Qed.
  Lemma sv_call chn n fn args : sv (call L RR chn n fn args).
  Proof using HRR.
    unfold call. apply sv_bind; [apply sv_gets|]. intros [[md|]|]; [|apply sv_raise|].
    - destruct (dget fn (m_funcs md)) as [f|]; [|apply sv_raise]. unfold invoke. destruct (f_export f); [apply sv_export|]; apply HRR.
    - apply sv_bind; [apply sv_gets|]. intros b. destruct b; [|apply sv_raise]. destruct (l_host L n) as [md|]; [|apply sv_raise]. destruct (dget fn (m_funcs md)) as [f|]; [|apply sv_raise].
      apply sv_bind; [apply sv_modify; reflexivity|]. intros _. apply HRR.
  Qed.
  Lemma sv_exec chn n code args : sv (exec_code L RR chn n code args).
  Proof using HRR.
    unfold exec_code. apply sv_bind; [apply sv_lift|]. intros text. apply sv_bind; [apply sv_lift|]. intros b. apply sv_bind; [apply sv_lift|]. intros md. apply sv_bind; [apply HRR|]. intros top.
    apply sv_bind; [destruct (m_ctor md); [apply HRR|apply sv_ret]|]. intros _. destruct (is_none top); [apply sv_gets|apply sv_ret].
  Qed.
  Lemma sv_go chn p : sv (go L RR chn p).
  Proof using HRR.
    revert chn. induction p as [v|e|e k IH|a k IH|k IH|n k IH|kd n k IH|n fn args k IH|exp b IHb k IH|ls ok k IH|n code args k IH]; intros chn; cbn [go].
    - apply sv_ret.
    - apply sv_raise.
    - apply sv_bind; [apply sv_line|intros; apply IH].
    - apply sv_bind; [apply sv_act|intros; apply IH].
    - apply sv_bind; [apply sv_gets|intros; apply IH].
    - apply sv_bind; [apply sv_gets|]. intros e. destruct (dget n e); [apply IH|apply sv_raise].
    - apply sv_bind; [apply sv_import|intros; apply IH].
    - apply sv_bind; [apply sv_call|intros; apply IH].
    - apply sv_bind; [destruct exp; [apply sv_export|]; apply HRR|intros; apply IH].
    - apply sv_bind; [apply sv_guard|intros; apply IH].
    - apply sv_bind; [apply sv_exec|intros; apply IH].
  Qed.
End Level.
Lemma sv_run L fuel : forall chn p, sv (run L fuel chn p).
Proof. induction fuel as [|n IH]; intros chn p; cbn [run]; apply sv_go; [intros; apply sv_raise|exact IH]. Qed.
Lemma sv_deeper L fuel chn p : sv (deeper L fuel chn p).
Proof. destruct fuel; [apply sv_raise|apply sv_run]. Qed.

(** ** A whole transaction *)
Lemma prepare_surv L fuel g t : sv (prepare L fuel g t).
Proof.
  unfold prepare. apply sv_bind.
  { unfold admission. destruct (metered g t); [|apply sv_ret]. apply sv_bind; [destruct (g_bypass_balance g); [apply sv_ret|apply sv_bind; [apply sv_world, wl_drv|intros; apply sv_lift]]|].
    intros b. apply sv_bind; [apply sv_lift|]. intros x. unfold check. destruct x; [apply sv_ret|apply sv_raise]. }
  intros _. apply sv_bind; [apply sv_modify; reflexivity|]. intros _. apply sv_bind.
  { unfold base_context. apply sv_bind; [apply sv_world, wl_drv|]. intros o. apply sv_bind; [apply sv_modify; reflexivity|]. intros _. apply sv_bind; [apply sv_gets|]. intros cs. destruct (_ || _)%bool; [apply sv_ret|apply sv_raise]. }
  intros _. apply sv_bind.
  { unfold find_function. apply sv_bind; [apply sv_plain, sv_deeper|]. intros _. apply sv_bind; [apply sv_gets|]. intros f. cbv zeta.
    destruct (match f with Some md => md | None => l_host L (t_contract t) end) as [md|]; [|apply sv_raise]. destruct (dget (t_function t) (m_funcs md)); [apply sv_ret|apply sv_raise]. }
  intros _. apply sv_bind; [unfold submission_name; destruct (str_eqb _ _); [apply sv_modify; reflexivity|apply sv_ret]|]. intros _. apply sv_lift.
Qed.
Lemma phases_surv L fuel g t s r s1 : phases L fuel g t s r s1 -> surv s s1.
Proof.
  pose proof (prepare_surv L fuel g t s) as HP. assert (HC : forall kw sa, surv sa (snd (entry_call L fuel t kw (primed g t sa)))).
  { intros kw sa. eapply surv_trans; [|apply sv_call, sv_deeper]. apply surv_same; [reflexivity|]. unfold primed, upd_r, upd_w, set_up. cbn. destruct (metered g t); reflexivity. }
  intros [e s' EP|kw sa e s' EP EC|kw sa v sb e s' EP EC A EA|kw sa v sb s' EP EC EA]; rewrite EP in HP; cbn [snd] in HP; try specialize (HC kw sa); try rewrite EC in HC; cbn [snd] in *.
  - exact HP.
  - exact (surv_trans _ _ _ HP HC).
  - eapply surv_trans; [exact HP|]. eapply surv_trans; [exact HC|]. assert (EA' : (if t_auto t then on_w (on_drv commit) else ret tt) (stopped sb) = (Err e, s')) by (rewrite A; exact EA).
    destruct (auto_same t sb _ _ EA') as (_ & H2 & H3 & _). apply surv_same; [exact H3|rewrite H2; reflexivity].
  - eapply surv_trans; [exact HP|]. eapply surv_trans; [exact HC|]. destruct (auto_same t sb _ _ EA) as (_ & H2 & H3 & _). apply surv_same; [exact H3|rewrite H2; reflexivity].
Qed.
Lemma filter_dget {V} (f : pystr -> bool) (d : dict V) n : dget n (filter (fun kv => f (fst kv)) d) = if f n then dget n d else None.
Proof.
  induction d as [|[k x] d IH]; cbn [filter dget fst]; [destruct (f n); reflexivity|]. destruct (f k) eqn:E; cbn [dget]; destruct (str_eqb_spec n k) as [->|Hn]; try exact IH.
  - rewrite E. reflexivity.
  - rewrite IH, E. reflexivity.
Qed.
(** no module outlives the transaction that loaded it *)
Lemma executed_mods L fuel g t s out s' : execute L fuel g t s = (Ok out, s') -> forall n o, dget n (s_mods s') = Some o -> dget n (s_mods s) = Some o.
Proof.
  intros H n o E. apply execute_inv in H as (_ & r & s1 & w & s3 & HP & _ & HF & -> & _). apply phases_surv in HP. destruct HP as [_ HS].
  destruct (restore_same t (dv_writes (s_drv s)) r s1) as (_ & R2 & R3 & _). assert (S0 : tr_started (rt_tracer (s_rt (restore t (dv_writes (s_drv s)) r s1))) = false) by (rewrite R2; reflexivity).
  destruct (charge_fee_inv L g t _ _ _ _ _ S0 HF) as (_ & F2 & F3 & _).
  unfold wind_up in E. cbn [s_mods set_restricted set_mods] in E. rewrite (filter_dget (fun k => negb (str_mem k (rt_loaded (s_rt s3))))) in E.
  destruct (str_mem n (rt_loaded (s_rt s3))) eqn:EM; cbn [negb] in E; [discriminate|]. rewrite F3, R3 in E. rewrite F2, R2 in EM. change (str_mem n (rt_loaded (s_rt s1)) = false) in EM.
  destruct (HS n o E) as [HI|HI]; [|exact HI]. exfalso. apply str_mem_spec in HI. rewrite HI in EM. discriminate.
Qed.
