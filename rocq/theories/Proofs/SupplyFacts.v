(** * Code that stays within two limits cannot tell one from the other *)
From Verif Require Import Model.Base Model.State Model.Dec Model.Time Model.Value Model.Encoder Model.Hdf5 Model.Runtime Model.Driver Model.Orm Model.Exec Model.Executor.
From Verif Require Import Spec.OrmSpec Spec.ExecSpec Proofs.BaseFacts Proofs.DriverFacts Proofs.OrmFacts Proofs.ExecFacts Proofs.ExecRel Proofs.MeterFacts Proofs.TxFacts.
From Coq Require Import Lia.
Local Open Scope Z_scope.

(** [m] never changes the limit, never lowers the cost, does nothing to a tracer that is off, and does the same under the limit [n] as under the
    limit in force, if the cost it ends with is within both *)
Record lim_at {S A} (trc : S -> tracer) (sup : Z -> S -> S) (n : Z) (m : st S A) (s : S) : Prop := mkLim {
  li_sup : tr_supplied (trc (snd (m s))) = tr_supplied (trc s);
  li_cost : tr_cost (trc s) <= tr_cost (trc (snd (m s)));
  li_off : tr_started (trc s) = false -> trc (snd (m s)) = trc s;
  li_eq : tr_cost (trc (snd (m s))) <= tr_supplied (trc s) -> tr_cost (trc (snd (m s))) <= n -> m (sup n s) = (fst (m s), sup n (snd (m s))) }.
Definition lim {S A} (trc : S -> tracer) (sup : Z -> S -> S) (n : Z) (m : st S A) : Prop := forall s, lim_at trc sup n m s.
Section Gen.
  Context {S : Type} (trc : S -> tracer) (sup : Z -> S -> S) (n : Z).
  Notation "'L' m" := (lim trc sup n m) (at level 10, m at level 9).
  Lemma lm_ret A (a : A) : L (ret a). Proof. intros s; constructor; intros; cbn; try reflexivity; lia. Qed.
  Lemma lm_lift A (r : result A) : L (lift r). Proof. intros s; constructor; intros; cbn; try reflexivity; lia. Qed.
  Lemma lm_raise A e : L (raise e : st S A). Proof. intros s; constructor; intros; cbn; try reflexivity; lia. Qed.
  Lemma lm_check b : L (check b). Proof. apply lm_lift. Qed.
  Lemma lm_bind A B (m : st S A) (k : A -> st S B) : L m -> (forall a, L (k a)) -> L (bind m k).
  Proof.
    intros Hm Hk s. destruct (Hm s) as [A1 A2 A3 A4]. constructor; unfold bind in *; destruct (m s) as [[a|e] s1]; cbn [fst snd] in *.
    - rewrite (li_sup _ _ _ _ _ (Hk a s1)). exact A1.
    - exact A1.
    - pose proof (li_cost _ _ _ _ _ (Hk a s1)). lia.
    - exact A2.
    - intros H. rewrite <- (A3 H). apply (Hk a s1). rewrite (A3 H). exact H.
    - exact A3.
    - intros H1 H2. pose proof (li_cost _ _ _ _ _ (Hk a s1)). rewrite A4 by lia. apply (Hk a s1); [rewrite A1|]; assumption.
    - intros H1 H2. rewrite A4 by lia. reflexivity.
  Qed.
  Lemma lm_gets A B (f : S -> A) (k : A -> st S B) : (forall s, f (sup n s) = f s) -> (forall a, L (k a)) -> L (bind (gets f) k).
  Proof.
    intros Hf Hk s. destruct (Hk (f s) s) as [A1 A2 A3 A4]. constructor; unfold bind, gets in *; cbn [fst snd] in *; try assumption.
    rewrite Hf. exact A4.
  Qed.
  Lemma lm_get A (f : S -> A) : (forall s, f (sup n s) = f s) -> L (gets f).
  Proof. intros Hf s. constructor; intros; cbn; try reflexivity; try lia. unfold gets. rewrite Hf. reflexivity. Qed.
  Lemma lm_mod (f : S -> S) : (forall s, trc (f s) = trc s) -> (forall s, f (sup n s) = sup n (f s)) -> L (modify f).
  Proof. intros Hf Hs s. constructor; cbn; rewrite ?Hf; intros; try reflexivity; try lia. unfold modify. rewrite Hs. reflexivity. Qed.
  Lemma lm_foreach A (f : A -> st S unit) l : (forall a, L (f a)) -> L (foreach f l).
  Proof. intros H. induction l; cbn [foreach]; [apply lm_ret | apply lm_bind; auto]. Qed.
End Gen.

(** ** Tracer and runtime *)
Definition sup_t (n : Z) (t : tracer) : tracer := set_stamp n t.
Definition sup_r (n : Z) (r : runtime) : runtime := set_tracer (sup_t n (rt_tracer r)) r.
Definition sup_w (n : Z) (w : world) : world := mkW (w_drv w) (sup_r n (w_rt w)).
Definition sup (n : Z) (s : mach) : mach := set_w (sup_w n (s_w s)) s.
Definition trw (w : world) : tracer := rt_tracer (w_rt w).
Notation LT := (lim (fun t => t) sup_t).
Notation LR := (lim rt_tracer sup_r).
Notation LW := (lim trw sup_w).
Notation LM := (lim tracer_of sup).
Lemma charge_lim n x t : tr_started t = true -> 0 <= x -> lim_at (fun t => t) sup_t n (charge x) t.
Proof.
  intros HS Hx. constructor; unfold charge, sup_t, set_stamp; cbn [tr_cost tr_supplied tr_last_mem tr_total_mem tr_started tr_calls].
  - destruct (_ || _)%bool; reflexivity.
  - destruct (_ || _)%bool; cbn; lia.
  - congruence.
  - destruct (Z.ltb_spec MAX_STAMPS (tr_cost t + x)); rewrite ?Bool.orb_true_r, ?Bool.orb_false_r; [reflexivity|].
    destruct (Z.ltb_spec (tr_supplied t) (tr_cost t + x)); cbn; [lia|]. intros _ H2. destruct (Z.ltb_spec n (tr_cost t + x)); [lia|]. reflexivity.
Qed.
Lemma line_lim n e : LT n (on_line e).
Proof.
  intros t. destruct (tr_started t) eqn:HS.
  2:{ constructor; unfold on_line; cbn [tr_started sup_t set_stamp]; rewrite HS; intros; try reflexivity; lia. }
  pose proof (on_line_tmon e t) as [M1 M2 M3 _ _ _]. constructor; [exact M2|lia|congruence|]. clear M1 M2 M3.
  unfold on_line. cbn [tr_started sup_t set_stamp]. rewrite HS. unfold trace_line. cbn [sup_t set_stamp tr_cost tr_supplied tr_last_mem tr_total_mem tr_started tr_calls].
  destruct (Z.ltb MAX_CALLS (tr_calls t + 1)); [reflexivity|]. destruct (le_contract e); cbn [negb]; [|reflexivity].
  set (total := if Z.ltb (if Z.eqb (tr_last_mem t) 0 then le_rss1 e else tr_last_mem t) (le_rss2 e) then _ else _). destruct (Z.ltb MAX_MEM total); [reflexivity|].
  set (t1 := mkTr (tr_cost t) (tr_supplied t) (le_rss2 e) total (tr_started t) (tr_calls t + 1)). intros H1 H2.
  exact (li_eq _ _ _ _ _ (charge_lim n (cu_cost (le_opcode e)) t1 HS (cu_pos _)) H1 H2).
Qed.
Lemma on_tracer_lim n {A} (m : st tracer A) r : lim_at (fun t => t) sup_t n m (rt_tracer r) -> lim_at rt_tracer sup_r n (on_tracer m) r.
Proof.
  intros [A1 A2 A3 A4]. constructor; unfold on_tracer in *; cbn [sup_r rt_tracer set_tracer] in *; destruct (m (rt_tracer r)) as [x t1]; cbn [fst snd rt_tracer set_tracer] in *; try assumption.
  intros H1 H2. rewrite (A4 H1 H2). cbn [fst snd]. f_equal.
Qed.
Lemma deduct_lim n kl vl : LR n (deduct_write kl vl).
Proof.
  intros r. destruct (tr_started (rt_tracer r)) eqn:HS.
  2:{ constructor; unfold deduct_write; cbn [sup_r sup_t set_stamp rt_tracer set_tracer tr_started]; rewrite HS; intros; try reflexivity; lia. }
  set (x := (Z.of_nat kl + Z.of_nat vl)%Z). assert (Hx : 0 <= x * WRITE_COST_PER_BYTE) by (unfold WRITE_COST_PER_BYTE; lia).
  assert (E : forall r', tr_started (rt_tracer r') = true -> deduct_write kl vl r' = if Z.ltb (rt_writes r' + x) WRITE_MAX then on_tracer (add_cost (x * WRITE_COST_PER_BYTE)) (set_rwrites (rt_writes r' + x) r') else (Err EAssertion, set_rwrites (rt_writes r' + x) r')).
  { intros r' H. unfold deduct_write. rewrite H. reflexivity. }
  pose proof (on_tracer_lim n (add_cost (x * WRITE_COST_PER_BYTE)) (set_rwrites (rt_writes r + x) r) (charge_lim n _ _ HS Hx)) as [A1 A2 A3 A4].
  assert (HS2 : tr_started (rt_tracer (sup_r n r)) = true) by exact HS.
  constructor.
  - rewrite E by exact HS. destruct (Z.ltb _ _); [exact A1|reflexivity].
  - rewrite E by exact HS. destruct (Z.ltb _ _); [exact A2|cbn; lia].
  - congruence.
  - rewrite (E r HS), (E _ HS2). change (rt_writes (sup_r n r)) with (rt_writes r). change (set_rwrites (rt_writes r + x) (sup_r n r)) with (sup_r n (set_rwrites (rt_writes r + x) r)).
    destruct (Z.ltb _ _); [exact A4|reflexivity].
Qed.
(** ** Driver and runtime *)
Lemma on_rt_lim n {A} (m : st runtime A) : LR n m -> LW n (on_rt m).
Proof.
  intros H w. destruct (H (w_rt w)) as [A1 A2 A3 A4]. constructor; unfold on_rt, trw in *; cbn [sup_w w_rt w_drv] in *; destruct (m (w_rt w)) as [x r1]; cbn [fst snd w_rt w_drv] in *; try assumption.
  intros H1 H2. rewrite (A4 H1 H2). reflexivity.
Qed.
Lemma on_drv_lim n {A} (m : st driver A) : LW n (on_drv m).
Proof. intros w. constructor; unfold on_drv, trw; cbn [sup_w w_rt w_drv]; destruct (m (w_drv w)) as [x v1]; cbn; try reflexivity; lia. Qed.
Lemma set_lim n k v b : LW n (set k v b).
Proof.
  unfold set. apply lm_bind; [apply lm_lift|]. intros [kl vl]. apply lm_bind; [apply on_rt_lim, deduct_lim|]. intros _. apply on_drv_lim.
Qed.
Lemma pay_lim n params kv : LW n (pay_arg params kv).
Proof.
  unfold pay_arg. apply lm_bind; [apply lm_lift|]. intros p. apply lm_bind; [apply lm_lift|]. intros b.
  apply lm_bind; [apply lm_check|]. intros _. apply lm_bind; [apply lm_lift|]. intros [kl vl]. apply on_rt_lim, deduct_lim.
Qed.
Lemma seed_lim n x : LW n (modify (upd_rt (set_seeded x))).
Proof. apply lm_mod; reflexivity. Qed.
Lemma do_act_lim n L a : LW n (do_act L a).
Proof.
  destruct a as [x|x v|h k|h k v|h l|h l|e p d|salt|d|c nn|c nn v|nm code o now dev]; cbn [do_act].
  - apply lm_bind; [apply on_drv_lim | intros; apply lm_ret].
  - apply lm_bind; [|intros; apply lm_ret]. unfold var_set. apply lm_bind; [|intros; apply set_lim].
    destruct (v_type x); [|apply lm_ret]. destruct (is_none v); [apply lm_ret|]. apply lm_bind; [apply lm_lift | intros; apply lm_check].
  - unfold hash_get. apply lm_bind; [apply lm_lift|]. intros s. apply lm_bind; [apply on_drv_lim|]. intros y.
    destruct (if is_none y then h_default h else y); try apply lm_ret; (apply lm_bind; [apply lm_lift | intros; apply lm_ret]).
  - apply lm_bind; [|intros; apply lm_ret]. unfold hash_set. apply lm_bind; [apply lm_lift|]. intros s. apply set_lim.
  - apply lm_bind; [|intros; apply lm_ret]. unfold hash_all. apply lm_bind; [apply lm_lift|]. intros p. apply on_drv_lim.
  - apply lm_bind; [|intros; apply lm_ret]. unfold hash_clear, hash_items. apply lm_bind.
    + apply lm_bind; [apply lm_lift|]. intros p. apply on_drv_lim.
    + intros i. apply lm_foreach. intros k. apply set_lim.
  - apply lm_bind.
    + unfold log_decl. apply lm_gets; [reflexivity|]. intros sg. apply lm_bind; [apply lm_check|]. intros _. apply lm_bind; [apply lm_check|]. intros _.
      apply lm_bind; [|intros; apply lm_ret]. apply lm_foreach. intros q. destruct (p_types (snd q)); [apply lm_check | apply lm_raise].
    + intros ev. apply lm_bind; [|intros; apply lm_ret]. unfold log_emit. apply lm_gets; [reflexivity|]. intros cs.
      apply lm_bind; [apply lm_check|]. intros _. apply lm_bind; [apply lm_foreach; intros; apply lm_check|]. intros _.
      apply lm_bind; [apply lm_foreach; intros; apply lm_lift|]. intros _. apply lm_bind; [apply lm_lift|]. intros ix. apply lm_bind; [apply lm_lift|]. intros dt.
      apply lm_bind; [apply lm_foreach; intros; apply pay_lim|]. intros _. apply lm_bind; [apply lm_foreach; intros; apply pay_lim|]. intros _.
      apply on_drv_lim.
  - unfold do_seed. intros w. cut (lim_at trw sup_w n (let! s := lift (seed_text L (rt_env (w_rt w)) salt) in (modify (upd_rt (set_seeded (Some (s, []))));; ret VNone)) w).
    { intros [A1 A2 A3 A4]. constructor; assumption. }
    apply lm_bind; [apply lm_lift|]. intros s. apply lm_bind; [apply seed_lim | intros; apply lm_ret].
  - unfold do_random. intros w. cut (lim_at trw sup_w n (match rt_seeded (w_rt w) with None => raise EAssertion | Some (s, ds) => modify (upd_rt (set_seeded (Some (s, ds ++ [d]))));; lift (l_rand L s ds d) end) w).
    { intros [A1 A2 A3 A4]. constructor; assumption. }
    destruct (rt_seeded (w_rt w)) as [[s ds]|]; [|apply lm_raise]. apply lm_bind; [apply seed_lim | intros; apply lm_lift].
  - apply on_drv_lim.
  - apply lm_bind; [apply set_lim | intros; apply lm_ret].
  - apply lm_bind; [|intros; apply lm_ret]. unfold set_contract. apply lm_bind; [apply on_drv_lim|]. intros x. destruct (is_none x); [|apply lm_ret].
    apply lm_bind; [apply lm_lift|]. intros blob. unfold set_var. repeat (apply lm_bind; [apply set_lim|]; intros _). apply set_lim.
Qed.
(** ** The machine *)
Lemma on_w_lim n {A} (m : st world A) : LW n m -> LM n (on_w m).
Proof.
  intros H s. destruct (H (s_w s)) as [A1 A2 A3 A4]. unfold trw in *. constructor; unfold on_w, tracer_of, s_rt in *; cbn [sup s_w set_w] in *; destruct (m (s_w s)) as [x w1]; cbn [fst snd s_w set_w] in *; try assumption.
  intros H1 H2. rewrite (A4 H1 H2). reflexivity.
Qed.
Lemma after_lim n {A} (m : st mach A) (h : result A -> mach -> mach -> mach) : LM n m -> (forall r s0 s, tracer_of (h r s0 s) = tracer_of s) ->
  (forall r s0 s, h r (sup n s0) (sup n s) = sup n (h r s0 s)) -> LM n (fun s => (fst (m s), h (fst (m s)) s (snd (m s)))).
Proof.
  intros Hm Hh Hc s. destruct (Hm s) as [A1 A2 A3 A4]. constructor; cbn [fst snd]; rewrite ?Hh; try assumption.
  intros H1 H2. rewrite (A4 H1 H2). cbn [fst snd]. rewrite Hc. reflexivity.
Qed.
Lemma ext_lim n {A} (m m' : st mach A) : (forall s, m s = m' s) -> LM n m' -> LM n m.
Proof. intros E H s. destruct (H s) as [A1 A2 A3 A4]. constructor; rewrite ?E; assumption. Qed.
Lemma act_lim n L a : LM n (act L a).
Proof.
  apply (ext_lim n _ (fun s => (fst (on_w (do_act L a) s), (fun r s0 s1 => match r with Ok _ => note (OAct (get_state (s_ctx s0)) a) s1 | Err _ => s1 end) (fst (on_w (do_act L a) s)) s (snd (on_w (do_act L a) s))))).
  - intros s. unfold act. destruct (on_w (do_act L a) s) as [[v|e] s1]; reflexivity.
  - apply (after_lim n (on_w (do_act L a)) (fun r s0 s1 => match r with Ok _ => note (OAct (get_state (s_ctx s0)) a) s1 | Err _ => s1 end)); [apply on_w_lim, do_act_lim|..]; intros [v|e] s0 s; reflexivity.
Qed.
Lemma code_line_lim n e : LM n (line e).
Proof.
  assert (H : LM n (on_w (on_rt (on_tracer (on_line e))))). { apply on_w_lim, on_rt_lim. intros r. apply on_tracer_lim, line_lim. }
  intros s. unfold line. destruct (H (note (OLine e) s)) as [A1 A2 A3 A4]. constructor; assumption.
Qed.
Lemma guard_lim n ls : LM n (guard ls).
Proof.
  pose proof (lm_foreach tracer_of sup n line_event line ls (code_line_lim n)) as H.
  intros s. destruct (H s) as [A1 A2 A3 A4]. constructor; unfold guard in *; destruct (foreach line ls s) as [[v|e] s1]; cbn [fst snd] in *; try assumption; intros H1 H2; rewrite (A4 H1 H2); reflexivity.
Qed.
Lemma ctx_lim n f : LM n (modify (upd_ctx f)).
Proof. apply lm_mod; reflexivity. Qed.
Lemma read_lim n {A} (m : st driver A) : LM n (on_w (on_drv m)).
Proof. apply on_w_lim, on_drv_lim. Qed.
Lemma enter_lim n c : LM n (enter c).
Proof.
  unfold enter. apply lm_gets; [reflexivity|]. intros [|]; [|apply ctx_lim]. apply lm_bind; [apply read_lim|]. intros o. apply lm_gets; [reflexivity|]. intros cs.
  apply lm_bind; [apply ctx_lim|]. intros _. destruct (_ || _)%bool; [apply lm_ret|apply lm_raise].
Qed.
Lemma export_lim n ch c m : LM n m -> LM n (with_export ch c m).
Proof.
  intros Hm. apply (ext_lim n _ (let! _ := enter c in (fun s1 => (fst (m (note (OBody ch c (get_state (s_ctx s1)) (s_drv s1)) s1)), upd_ctx pop_state (snd (m (note (OBody ch c (get_state (s_ctx s1)) (s_drv s1)) s1))))))).
  - intros s. unfold with_export, bind. destruct (enter c s) as [[[]|e] s1]; [|reflexivity]. destruct (m (note (OBody ch c (get_state (s_ctx s1)) (s_drv s1)) s1)); reflexivity.
  - apply lm_bind; [apply enter_lim|]. intros _ s1. destruct (Hm (note (OBody ch c (get_state (s_ctx s1)) (s_drv s1)) s1)) as [A1 A2 A3 A4]. constructor; cbn [fst snd]; try assumption.
    intros H1 H2. specialize (A4 H1 H2). change (note (OBody ch c (get_state (s_ctx (sup n s1))) (s_drv (sup n s1))) (sup n s1)) with (sup n (note (OBody ch c (get_state (s_ctx s1)) (s_drv s1)) s1)). rewrite A4. reflexivity.
Qed.
Lemma fetch_lim n L x : LM n (fetch L x).
Proof. unfold fetch. apply lm_bind; [apply read_lim|]. intros code. apply lm_bind; [apply lm_lift|]. intros b. apply lm_lift. Qed.
Lemma load_lim n L R ch x : (forall md, LM n (R (x :: ch) (m_init md))) -> LM n (load L R ch x).
Proof.
  intros HR. set (m := (let! md := fetch L x in R (x :: ch) (m_init md);; ret md)).
  assert (Hm : LM n m) by (apply lm_bind; [apply fetch_lim|]; intros md; apply lm_bind; [apply HR|]; intros _; apply lm_ret).
  intros s. destruct (Hm (set_mods (dset x None (s_mods s)) s)) as [A1 A2 A3 A4].
  constructor; unfold load; fold m; cbn [sup s_mods set_mods]; [destruct (m (set_mods (dset x None (s_mods s)) s)) as [[md|e] s1]; cbn [fst snd] in *; assumption..|].
  change (set_mods (dset x None (s_mods (sup n s))) (sup n s)) with (sup n (set_mods (dset x None (s_mods s)) s)).
  destruct (m (set_mods (dset x None (s_mods s)) s)) as [[md|e] s1]; cbn [fst snd] in *; intros H1 H2; rewrite (A4 H1 H2); reflexivity.
Qed.
Lemma view_lim n A B (f : view -> B) (k : B -> st mach A) : (forall v, LM n (k (f v))) -> LM n (bind (gets (fun s => f (view_of s))) k).
Proof. intros Hk s. destruct (Hk (view_of s) s) as [A1 A2 A3 A4]. constructor; assumption. Qed.
Section Runs.
  Variables (L : lang) (n : Z).
  Definition T0 (_ : nat) (A : Type) (_ : list pystr) (m : st mach A) : Prop := LM n m.
  Ltac feed thm := eapply thm with (L := L) (Q := anything) (QM := fun _ => True) (T := T0); unfold T0;
    [ trivial | intros; apply each_anything | intros; apply each_anything | intros; apply each_anything | intros; apply each_anything
    | auto | intros; apply lm_ret | intros; apply lm_raise | intros; apply lm_bind; assumption
    | intros fu A B ch0 f k H; apply view_lim; intros v; apply H; intros ? ? ?; exact I | intros; apply read_lim
    | intros; unfold imported; apply lm_mod; reflexivity | intros; unfold hosted; apply lm_mod; reflexivity
    | intros; apply act_lim | intros; apply code_line_lim | intros; apply guard_lim | intros; apply export_lim; assumption
    | intros fu ch0 x0 H; apply load_lim; intros md; apply H; exact I | auto
    | intros fu ch0 c0 fn0 args0 k0 md f _ _ _ H; apply lm_bind; [apply lm_mod; reflexivity|intros _; exact H] | .. ].
  Lemma import_lim fuel kind ch x : LM n (plain_import L (deeper L fuel) kind ch x).
  Proof. change (T0 (S fuel) unit ch (plain_import L (deeper L fuel) kind ch x)). feed T_top_import. Qed.
  Lemma call_lim fuel ch c fn args : LM n (call L (deeper L fuel) ch c fn args).
  Proof. change (T0 (S fuel) pyval ch (call L (deeper L fuel) ch c fn args)). feed T_top_call. exact I. Unshelve. exact (fun _ => PRet VNone). Qed.
End Runs.
