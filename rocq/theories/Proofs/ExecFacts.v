(** * The one induction over behaviours that all theorems about contract programs use *)
From Verif Require Import Model.Base Model.State Model.Dec Model.Time Model.Value Model.Encoder Model.Hdf5 Model.Runtime Model.Driver Model.Orm Model.Exec Model.Executor.
From Verif Require Import Spec.ExecSpec Proofs.BaseFacts Proofs.DriverFacts.

Lemma each_imp (Q Q' : prog -> Prop) p : (forall p, Q p -> Q' p) -> each Q p -> each Q' p.
Proof. intros H. induction p; cbn; firstorder. Qed.

(** What running code looks at besides the storage *)
Record view : Type := mkView { vw_mods : dict (option modul); vw_hosts : list pystr; vw_restricted : bool; vw_ctx : context; vw_env : dict pyval }.
Definition view_of (s : mach) : view := mkView (s_mods s) (s_hosts s) (s_restricted s) (s_ctx s) (rt_env (s_rt s)).

Section Core.
  Variables (L : lang) (Q : prog -> Prop) (QM : modul -> Prop).
  Hypothesis QM_interp : forall b md, l_interp L b = Ok md -> QM md.
  Hypothesis QM_host : forall x md n f a c k, Q (PCall c n a k) -> l_host L x = Some md -> dget n (m_funcs md) = Some f -> each Q (f_body f a).
  Hypothesis QM_init : forall md, QM md -> each Q (m_init md).
  Hypothesis QM_ctor : forall md f a, (exists n c x k, Q (PExec n c x k)) -> QM md -> m_ctor md = Some f -> each Q (f a).
  Hypothesis QM_func : forall md n f a c k, Q (PCall c n a k) -> QM md -> dget n (m_funcs md) = Some f -> each Q (f_body f a).
  (** [T n ch m]: [m] is code with [n] levels of nested calls left, in a chain of calls [ch] *)
  Variable T : nat -> forall A : Type, list pystr -> st mach A -> Prop.
  Arguments T _ {A} _ _.
  Variable VP : view -> Prop.
  Hypothesis VP_mods : forall v, VP v -> mods_all QM (vw_mods v).
  Hypothesis T_up : forall n A ch (m : st mach A), T n ch m -> T (S n) ch m.
  Hypothesis T_ret : forall n A ch (a : A), T n ch (ret a).
  Hypothesis T_raise : forall n A ch e, T n ch (raise e : st mach A).
  Hypothesis T_bind : forall n A B ch (m : st mach A) (k : A -> st mach B), T n ch m -> (forall a, T n ch (k a)) -> T n ch (bind m k).
  Hypothesis T_view : forall n A B ch (f : view -> B) (k : B -> st mach A),
    (forall v, VP v -> T n ch (k (f v))) -> T n ch (bind (gets (fun s => f (view_of s))) k).
  Hypothesis T_read : forall n ch k, T n ch (on_w (on_drv (get k))).
  Hypothesis T_act : forall n ch a k, Q (PAct a k) -> T n ch (act L a).
  Hypothesis T_line : forall n ch e k, Q (PLine e k) -> T n ch (line e).
  Hypothesis T_guard : forall n ch ls ok k, Q (PGuard ls ok k) -> T n ch (guard ls).
  Hypothesis T_export : forall n ch c (m : st mach pyval),
    ((exists b k, Q (PApply (Some c) b k)) \/ (exists md n f x y z k, QM md /\ dget n (m_funcs md) = Some f /\ f_export f = Some c /\ Q (PCall x y z k))) ->
    T n (c :: ch) m -> T (S n) ch (with_export ch c m).
  Hypothesis T_import_step : forall fuel ch kind n k, Q (PImport kind n k) ->
    (forall md, QM md -> T fuel (n :: ch) (deeper L fuel (n :: ch) (m_init md))) -> T (S fuel) ch (import L (deeper L fuel) kind ch n).
  Hypothesis T_undec : forall fuel ch c fn args k md f, Q (PCall c fn args k) -> QM md -> dget fn (m_funcs md) = Some f -> f_export f = None ->
    T fuel (c :: ch) (deeper L fuel (c :: ch) (f_body f args)) -> T (S fuel) ch (deeper L fuel (c :: ch) (f_body f args)).
  Hypothesis T_hostcall : forall fuel ch c fn args k md f, Q (PCall c fn args k) -> (exists v, VP v /\ str_mem c (vw_hosts v) = true) -> l_host L c = Some md -> dget fn (m_funcs md) = Some f ->
    T fuel (c :: ch) (deeper L fuel (c :: ch) (f_body f args)) -> T (S fuel) ch (modify (note (OHost c fn));; deeper L fuel (c :: ch) (f_body f args)).

  Lemma C_lift_bind n A B ch (r : result A) (k : A -> st mach B) : (forall a, r = Ok a -> T n ch (k a)) -> T n ch (bind (lift r) k).
  Proof using T_raise. intros H. destruct r as [a|e]; [exact (H a eq_refl) | exact (T_raise n B ch e)]. Qed.
  Lemma C_lift n A ch (r : result A) : T n ch (lift r).
  Proof using T_raise T_ret. destruct r as [a|e]; [exact (T_ret n A ch a) | exact (T_raise n A ch e)]. Qed.
  Lemma C_read_var n ch c x : T n ch (on_w (on_drv (get_var c x []))).
  Proof using T_read. apply T_read. Qed.

  Section Step.
    Variable fuel : nat.
    Notation R := (deeper L fuel).
    Hypothesis HR : forall ch p, each Q p -> T fuel ch (R ch p).
    Lemma C_call ch c fn args k : Q (PCall c fn args k) -> T (S fuel) ch (call L R ch c fn args).
    Proof using HR QM_func QM_host VP_mods T_view T_raise T_export T_undec T_hostcall.
      intros HQ. unfold call. apply (T_view _ _ _ ch (fun v => dget c (vw_mods v))). intros v Hv. cbv beta.
      destruct (dget c (vw_mods v)) as [[md|]|] eqn:E; [|apply T_raise|].
      - pose proof (VP_mods _ Hv _ _ E) as Hmd. destruct (dget fn (m_funcs md)) as [f|] eqn:F; [|apply T_raise].
        unfold invoke. destruct (f_export f) as [x|] eqn:X.
        + apply T_export; [right; exists md, fn, f, c, fn, args, k; auto|]. apply HR. eapply QM_func; eauto.
        + eapply T_undec; eauto.
      - apply (T_view _ _ _ ch (fun v => str_mem c (vw_hosts v))). intros v' Hv'. cbv beta. destruct (str_mem c (vw_hosts v')) eqn:EM; [|apply T_raise].
        destruct (l_host L c) as [md|] eqn:H; [|apply T_raise]. destruct (dget fn (m_funcs md)) as [f|] eqn:F; [|apply T_raise].
        eapply T_hostcall; [exact HQ|exists v'; auto|exact H|exact F|apply HR; eapply QM_host; eauto].
    Qed.
    Lemma C_exec_code ch name code args : (exists n c x k, Q (PExec n c x k)) -> T (S fuel) ch (exec_code L R ch name code args).
    Proof using HR QM_init QM_ctor QM_interp T_up T_view T_raise T_bind T_ret.
      intros HX. unfold exec_code. apply C_lift_bind. intros text _. apply C_lift_bind. intros blob _. apply C_lift_bind. intros md Hmd.
      pose proof (QM_interp _ _ Hmd) as HM.
      apply T_bind; [apply T_up, HR; auto|]. intros top.
      apply T_bind; [destruct (m_ctor md) eqn:C; [apply T_up, HR; eapply QM_ctor; eauto | apply T_ret]|]. intros _.
      destruct (is_none top); [|apply T_ret].
      pose proof (T_view (S fuel) _ _ ch (fun v => pget (u "now") (vw_env v)) (fun x => ret x)) as H. cbv beta in H.
      specialize (H (fun v _ => T_ret _ _ ch _)). exact H.
    Qed.
    Lemma C_go ch p : each Q p -> T (S fuel) ch (go L R ch p).
    Proof using All.
      induction p as [v|e|e k IH|a k IH|k IH|n k IH|kd n k IH|c fn a k IH|x b IHb k IH|ls ok k IH|n c a k IH]; cbn [each go]; intros [HQ HK].
      - apply T_ret. - apply T_raise.
      - apply T_bind; [eapply T_line; eauto | intros _; auto].
      - apply T_bind; [eapply T_act; eauto | auto].
      - apply (T_view _ _ _ ch (fun v => get_state (vw_ctx v))). auto.
      - apply (T_view _ _ _ ch (fun v => vw_env v)). intros v _. cbv beta. destruct (dget n (vw_env v)); [auto | apply T_raise].
      - apply T_bind; [eapply T_import_step; [exact HQ|intros md H; apply HR; auto] | auto].
      - apply T_bind; [eapply C_call; eauto | auto].
      - apply T_bind; [|intros v; apply IH; apply HK]. destruct x as [c|]; [apply T_export; [left; eauto|apply HR, HK]|apply T_up, HR, HK].
      - apply T_bind; [eapply T_guard; eauto | auto].
      - apply T_bind; [apply C_exec_code; eauto | auto].
    Qed.
  End Step.
  Theorem C_run fuel : forall ch p, each Q p -> T (S fuel) ch (run L fuel ch p).
  Proof using All.
    induction fuel as [|n IH]; intros ch p Hp.
    - apply (C_go 0); [|exact Hp]. intros ch' p' _. cbn. apply T_raise.
    - apply (C_go (S n)); [|exact Hp]. cbn. exact IH.
  Qed.
  Theorem C_deeper fuel : forall ch p, each Q p -> T fuel ch (deeper L fuel ch p).
  Proof using All. intros ch p Hp. destruct fuel; cbn; [apply T_raise | apply C_run; exact Hp]. Qed.
  Theorem C_top_call fuel ch c fn args k : Q (PCall c fn args k) -> T (S fuel) ch (call L (deeper L fuel) ch c fn args).
  Proof using All. apply C_call. apply C_deeper. Qed.
End Core.
Section Master.
  Variables (L : lang) (Q : prog -> Prop) (QM : modul -> Prop).
  Hypothesis QM_interp : forall b md, l_interp L b = Ok md -> QM md.
  Hypothesis QM_host : forall x md n f a c k, Q (PCall c n a k) -> l_host L x = Some md -> dget n (m_funcs md) = Some f -> each Q (f_body f a).
  Hypothesis QM_init : forall md, QM md -> each Q (m_init md).
  Hypothesis QM_ctor : forall md f a, (exists n c x k, Q (PExec n c x k)) -> QM md -> m_ctor md = Some f -> each Q (f a).
  Hypothesis QM_func : forall md n f a c k, Q (PCall c n a k) -> QM md -> dget n (m_funcs md) = Some f -> each Q (f_body f a).
  (** [T n ch m]: [m] is code with [n] levels of nested calls left, in a chain of calls [ch] *)
  Variable T : nat -> forall A : Type, list pystr -> st mach A -> Prop.
  Arguments T _ {A} _ _.
  Hypothesis T_up : forall n A ch (m : st mach A), T n ch m -> T (S n) ch m.
  Hypothesis T_ret : forall n A ch (a : A), T n ch (ret a).
  Hypothesis T_raise : forall n A ch e, T n ch (raise e : st mach A).
  Hypothesis T_bind : forall n A B ch (m : st mach A) (k : A -> st mach B), T n ch m -> (forall a, T n ch (k a)) -> T n ch (bind m k).
  Hypothesis T_view : forall n A B ch (f : view -> B) (k : B -> st mach A),
    (forall v, mods_all QM (vw_mods v) -> T n ch (k (f v))) -> T n ch (bind (gets (fun s => f (view_of s))) k).
  Hypothesis T_read : forall n ch k, T n ch (on_w (on_drv (get k))).
  Hypothesis T_imported : forall n ch kind x, T n ch (imported kind x).
  Hypothesis T_hosted : forall n ch x, T n ch (hosted x).
  Hypothesis T_act : forall n ch a k, Q (PAct a k) -> T n ch (act L a).
  Hypothesis T_line : forall n ch e k, Q (PLine e k) -> T n ch (line e).
  Hypothesis T_guard : forall n ch ls ok k, Q (PGuard ls ok k) -> T n ch (guard ls).
  Hypothesis T_export : forall n ch c (m : st mach pyval),
    ((exists b k, Q (PApply (Some c) b k)) \/ (exists md n f x y z k, QM md /\ dget n (m_funcs md) = Some f /\ f_export f = Some c /\ Q (PCall x y z k))) ->
    T n (c :: ch) m -> T (S n) ch (with_export ch c m).
  Hypothesis T_load : forall fuel ch n,
    (forall md, QM md -> T fuel (n :: ch) (deeper L fuel (n :: ch) (m_init md))) -> T (S fuel) ch (load L (deeper L fuel) ch n).
  Hypothesis T_undec : forall fuel ch c fn args k md f, Q (PCall c fn args k) -> QM md -> dget fn (m_funcs md) = Some f -> f_export f = None ->
    T fuel (c :: ch) (deeper L fuel (c :: ch) (f_body f args)) -> T (S fuel) ch (deeper L fuel (c :: ch) (f_body f args)).
  Hypothesis T_hostcall : forall fuel ch c fn args k md f, Q (PCall c fn args k) -> l_host L c = Some md -> dget fn (m_funcs md) = Some f ->
    T fuel (c :: ch) (deeper L fuel (c :: ch) (f_body f args)) -> T (S fuel) ch (modify (note (OHost c fn));; deeper L fuel (c :: ch) (f_body f args)).

  Lemma T_lift_bind n A B ch (r : result A) (k : A -> st mach B) : (forall a, r = Ok a -> T n ch (k a)) -> T n ch (bind (lift r) k).
  Proof using T_raise. intros H. destruct r as [a|e]; [exact (H a eq_refl) | exact (T_raise n B ch e)]. Qed.
  Lemma T_lift n A ch (r : result A) : T n ch (lift r).
  Proof using T_raise T_ret. destruct r as [a|e]; [exact (T_ret n A ch a) | exact (T_raise n A ch e)]. Qed.
  Lemma T_read_var n ch c x : T n ch (on_w (on_drv (get_var c x []))).
  Proof using T_read. apply T_read. Qed.

  Section Step.
    Variable fuel : nat.
    Notation R := (deeper L fuel).
    Hypothesis HR : forall ch p, each Q p -> T fuel ch (R ch p).
    Lemma T_loads ch n : T (S fuel) ch (load L R ch n).
    Proof using HR QM_init T_load. apply T_load. intros md H. apply HR. auto. Qed.
    Lemma T_plain_import kind ch n : T (S fuel) ch (plain_import L R kind ch n).
    Proof using HR QM_init T_load T_view T_bind T_read T_imported T_hosted T_raise.
      unfold plain_import. apply (T_view _ _ _ ch (fun v => dmem n (vw_mods v))). intros v Hv. cbv beta.
      destruct (dmem n (vw_mods v)); [apply T_imported|].
      destruct (l_sysmod L n); [apply T_bind; [apply T_hosted | intros _; apply T_imported]|].
      apply T_bind; [apply T_read_var|]. intros c. destruct (negb (is_none c)).
      - apply T_bind; [apply T_loads | intros _; apply T_imported].
      - destruct (l_host L n); [apply T_bind; [apply T_hosted | intros _; apply T_imported] | apply T_raise].
    Qed.
  End Step.
  Lemma import_step fuel ch kind n : (forall md, QM md -> T fuel (n :: ch) (deeper L fuel (n :: ch) (m_init md))) -> T (S fuel) ch (import L (deeper L fuel) kind ch n).
  Proof using T_load T_view T_bind T_read T_imported T_hosted T_raise T_ret.
    intros HI. assert (HL : T (S fuel) ch (load L (deeper L fuel) ch n)) by (apply T_load; exact HI).
    assert (HP : forall kd, T (S fuel) ch (plain_import L (deeper L fuel) kd ch n)).
    { intros kd. unfold plain_import. apply (T_view _ _ _ ch (fun v => dmem n (vw_mods v))). intros v Hv. cbv beta.
      destruct (dmem n (vw_mods v)); [apply T_imported|].
      destruct (l_sysmod L n); [apply T_bind; [apply T_hosted | intros _; apply T_imported]|].
      apply T_bind; [apply T_read_var|]. intros c. destruct (negb (is_none c)).
      - apply T_bind; [exact HL | intros _; apply T_imported].
      - destruct (l_host L n); [apply T_bind; [apply T_hosted | intros _; apply T_imported] | apply T_raise]. }
    destruct kind.
    - unfold import. apply (T_view _ _ _ ch (fun v => vw_restricted v)). intros v Hv. cbv beta. destruct (vw_restricted v); [|apply HP].
      unfold restricted_import. apply (T_view _ _ _ ch (fun v => dmem n (vw_mods v))). intros v' Hv'. cbv beta.
      destruct (dmem n (vw_mods v')); [apply T_imported|]. destruct (l_sysmod L n); [apply T_raise|].
      apply T_bind; [apply T_read_var|]. intros c. destruct (negb (is_none c)); [|apply T_raise].
      apply T_bind; [exact HL | intros _; apply T_imported].
    - unfold import, lib_import. apply T_lift_bind. intros _ _. apply T_lift_bind. intros _ _.
      apply T_bind; [destruct (l_stdlib L n); [apply T_raise | apply T_ret]|]. intros _.
      apply T_bind; [destruct (startswith n (u "_")); [apply T_raise | apply T_ret]|]. intros _.
      apply T_bind; [apply T_read_var|]. intros c. destruct (is_none c); [apply T_raise | apply HP].
  Qed.
  Theorem T_run fuel : forall ch p, each Q p -> T (S fuel) ch (run L fuel ch p).
  Proof using All. apply (C_run L Q QM QM_interp QM_host QM_init QM_ctor QM_func T (fun v => mods_all QM (vw_mods v)) (fun v H => H)); auto; [|intros fu ch0 c0 fn0 a0 k0 md0 f0 HQ0 _; eapply T_hostcall; exact HQ0]. intros fu ch0 kd x k0 _. apply import_step. Qed.
  Theorem T_deeper fuel : forall ch p, each Q p -> T fuel ch (deeper L fuel ch p).
  Proof using All. intros ch p Hp. destruct fuel; cbn; [apply T_raise | apply T_run; exact Hp]. Qed.
  Theorem T_top_import fuel kind ch n : T (S fuel) ch (plain_import L (deeper L fuel) kind ch n).
  Proof using All. apply T_plain_import. apply T_deeper. Qed.
  Theorem T_top_call fuel ch c fn args k : Q (PCall c fn args k) -> T (S fuel) ch (call L (deeper L fuel) ch c fn args).
  Proof using All. apply (C_top_call L Q QM QM_interp QM_host QM_init QM_ctor QM_func T (fun v => mods_all QM (vw_mods v)) (fun v H => H)); auto; [|intros fu ch0 c0 fn0 a0 k0 md0 f0 HQ0 _; eapply T_hostcall; exact HQ0]. intros fu ch0 kd x k0 _. apply import_step. Qed.
End Master.
