(** * What contract code leaves in the driver, in terms of the log *)
From Verif Require Import Model.Base Model.State Model.Dec Model.Time Model.Value Model.Encoder Model.Hdf5 Model.Runtime Model.Driver Model.Orm Model.Exec Model.Executor.
From Verif Require Import Spec.OrmSpec Spec.ExecSpec Proofs.BaseFacts Proofs.DriverFacts Proofs.OrmFacts Proofs.ExecFacts Proofs.ExecRel Proofs.MeterFacts Proofs.TxFacts Proofs.DrvRel.
From Verif Require Import Properties.OrmProps.

(** ** Events *)
Definition picked (sel : bool) (params : dict param) (data : dict pyval) : dict pyval :=
  flat_map (fun p => if Bool.eqb (p_idx (snd p)) sel then match dget (fst p) data with Some v => [(fst p, v)] | None => [] end else []) params.
Lemma select_picked (b : bool) params data l : select (fun p => if b then p_idx p else negb (p_idx p)) params data = Ok l -> l = picked b params data.
Proof.
  unfold select, picked. revert l. induction params as [|p params IH]; intros l; [intros E; injection E as <-; reflexivity|]. cbn [filter flat_map].
  replace (Bool.eqb (p_idx (snd p)) b) with (if b then p_idx (snd p) else negb (p_idx (snd p))) by (destruct b, (p_idx (snd p)); reflexivity).
  destruct (if b then p_idx (snd p) else negb (p_idx (snd p))); [|exact (IH l)]. cbn [seqr]. unfold getitem. destruct (dget (fst p) data) as [v|]; [|discriminate].
  cbn [bindr]. destruct (seqr _ (filter _ params)) as [r|]; [|discriminate]. cbn [bindr]. intros E. injection E as <-. rewrite (IH r eq_refl). reflexivity.
Qed.
Lemma emit_effect ostr name params data w :
  match (let! e := log_decl name params in log_emit ostr e data;; ret VNone) w with
  | (Ok _, w') => exists ev, event_of (OAct (get_state (rt_ctx (w_rt w))) (ActEmit name params data)) = Some ev /\ w_drv w' = set_events (dv_events (w_drv w) ++ [ev]) (w_drv w)
  | (Err _, w') => w_drv w' = w_drv w
  end.
Proof.
  rewrite bind_eq.
  assert (HD : snd (log_decl name params w) = w /\ forall e, fst (log_decl name params w) = Ok e -> e = mkLE name (c_signer (get_state (rt_ctx (w_rt w)))) params).
  { remember (log_decl name params w) as R eqn:ER. unfold log_decl in ER. rewrite bind_eq in ER. cbn [gets] in ER. rewrite bind_eq in ER. unfold check at 1 in ER. cbn [lift] in ER.
    destruct (assertr _); [|subst R; split; [reflexivity|discriminate]]. rewrite bind_eq in ER. unfold check at 1 in ER. cbn [lift] in ER.
    destruct (assertr _); [|subst R; split; [reflexivity|discriminate]]. rewrite bind_eq in ER.
    pose (f := fun p : pystr * param => match p_types (snd p) return result unit with None => Err EKey | Some ts => assertr (forallb event_type ts) end).
    assert (HF : forall l (v : world), foreach (fun p : pystr * param => match p_types (snd p) return st world unit with None => raise EKey | Some ts => check (forallb event_type ts) end) l v = foreach (fun p => lift (f p)) l v).
    { induction l as [|p l IH]; intros v; [reflexivity|]. cbn [foreach]. rewrite !bind_eq. unfold f at 1. destruct (p_types (snd p)); [|reflexivity]. unfold check. cbn [lift].
      destruct (assertr (forallb event_type l0)); [apply IH|reflexivity]. }
    rewrite HF in ER. destruct (foreach_lift f params w) as [[H _]|(e0 & H)]; rewrite H in ER; subst R; (split; [reflexivity|]); [|discriminate].
    intros e E. injection E as <-. reflexivity. }
  destruct (log_decl name params w) as [[e|x] w0]; cbn [fst snd] in HD; destruct HD as [-> HD]; [|reflexivity]. rewrite (HD e eq_refl). clear HD e.
  rewrite bind_eq. remember (log_emit ostr _ data w) as R eqn:ER. unfold log_emit in ER. cbn [le_params le_event le_signer] in ER.
  rewrite bind_eq in ER. cbn [gets] in ER. rewrite bind_eq in ER. unfold check at 1 in ER. cbn [lift] in ER.
  destruct (assertr _); [|subst R; reflexivity].
  rewrite bind_eq in ER. rewrite foreach_check_eq in ER.
  destruct (foreach_lift (fun kv : pystr * pyval => assertr (dmem (fst kv) params)) data w) as [[HF HA]|(e0 & HF)]; rewrite HF in ER; [|subst R; reflexivity].
  rewrite bind_eq in ER.
  destruct (foreach_lift (fun p => check_arg ostr data p) params w) as [[HF2 HB]|(e0 & HF2)]; rewrite HF2 in ER; [|subst R; reflexivity].
  rewrite bind_eq in ER. cbn [lift] in ER. destruct (select p_idx params data) as [ix|] eqn:EX; [|subst R; reflexivity].
  rewrite bind_eq in ER. cbn [lift] in ER. destruct (select (fun p => negb (p_idx p)) params data) as [dt|] eqn:ED; [|subst R; reflexivity].
  rewrite bind_eq in ER. destruct (foreach_rt_only (pay_arg params) ix (pay_arg_only params) w) as [W1 C1].
  destruct (foreach (pay_arg params) ix w) as [[[]|e1] w1] eqn:F1; cbn [snd] in *; [|subst R; exact W1].
  rewrite bind_eq in ER. destruct (foreach_rt_only (pay_arg params) dt (pay_arg_only params) w1) as [W2 C2].
  destruct (foreach (pay_arg params) dt w1) as [[[]|e2] w2] eqn:F2; cbn [snd] in *; [|subst R; congruence].
  subst R. unfold on_drv, set_event, modify. cbn [ret].
  apply (select_picked true) in EX. apply (select_picked false) in ED. subst ix dt.
  eexists. split; [reflexivity|]. cbn [w_drv]. rewrite W2, W1. reflexivity.
Qed.

(** ** One action *)
Lemma writes_of_app L a b : writes_of L (a ++ b) = writes_of L a ++ writes_of L b.
Proof. induction a as [|o a IH]; [reflexivity|]. cbn [app writes_of]. destruct (write_of L o); cbn [app]; rewrite IH; reflexivity. Qed.
Lemma events_of_app a b : events_of (a ++ b) = events_of a ++ events_of b.
Proof. induction a as [|o a IH]; [reflexivity|]. cbn [app events_of]. destruct (event_of o); cbn [app]; rewrite IH; reflexivity. Qed.
Lemma dupdate_app {V} (d a b : dict V) : dupdate d (a ++ b) = dupdate (dupdate d a) b.
Proof. unfold dupdate. apply fold_left_app. Qed.
Lemma no_act_writes L l : Forall no_act l -> writes_of L l = [] /\ events_of l = [].
Proof. induction 1 as [|o l Ho _ IH]; [split; reflexivity|]. destruct o; cbn in Ho; try contradiction; exact IH. Qed.
Lemma dget_updated k (d e : dict pyval) : dget k (dupdate d e) = match final_write k e with Some v => Some v | None => dget k d end.
Proof.
  revert d. induction e as [|[j v] e IH]; intros d; [reflexivity|]. cbn [dupdate fold_left fst snd final_write]. fold (dupdate (dset j v d) e). rewrite IH.
  destruct (final_write k e); [reflexivity|]. rewrite dget_dset. destruct (str_eqb k j); reflexivity.
Qed.
(** the transaction's writes and events grow by exactly what the log records; the pending writes too, for code that only assigns *)
Record logged (L : lang) (orm : bool) (s s' : mach) : Prop := mkLogged {
  lg_log : exists l, s_log s' = s_log s ++ l /\ dv_txn (s_drv s') = dupdate (dv_txn (s_drv s)) (writes_of L l) /\
    dv_events (s_drv s') = dv_events (s_drv s) ++ events_of l /\
    (orm = true -> dv_writes (s_drv s') = dupdate (dv_writes (s_drv s)) (writes_of L l)) }.
Lemma logged_refl L b s : logged L b s s.
Proof. constructor. exists []. rewrite !app_nil_r. repeat split. Qed.
Lemma logged_trans L b s s1 s2 : logged L b s s1 -> logged L b s1 s2 -> logged L b s s2.
Proof.
  intros [(l & H1 & H2 & H3 & H4)] [(l' & H1' & H2' & H3' & H4')]. constructor. exists (l ++ l').
  rewrite H1', H1, H2', H2, H3', H3, writes_of_app, events_of_app, dupdate_app, <- !app_assoc. repeat (split; [reflexivity|]). intros Hb. rewrite (H4' Hb), (H4 Hb), dupdate_app. reflexivity.
Qed.
Lemma logged_glue L b s s' : glue s s' -> logged L b s s'.
Proof.
  intros [(x & HD) _ _ (l & HL & Hl)]. constructor. exists l. destruct (no_act_writes L l Hl) as [-> ->]. rewrite HD. cbn. rewrite app_nil_r. repeat split; assumption.
Qed.
Lemma quiet_acts L a w : act_sets L (fun _ b => b = false) a -> ~ is_emit a ->
  dv_txn (w_drv (snd (do_act L a w))) = dv_txn (w_drv w) /\ dv_events (w_drv (snd (do_act L a w))) = dv_events (w_drv w).
Proof.
  intros HA HE. apply (do_act_rel L (fun _ b => b = false) False (fun w _ w' => dv_txn (w_drv w') = dv_txn (w_drv w) /\ dv_events (w_drv w') = dv_events (w_drv w))); auto.
  - intros x b y z [A B] [C D]. split; congruence.
  - intros k v b x ->. destruct (set_spec k v false x) as [(y & r & t & _ & _ & _ & H & Ht)|(e & r & _ & H)]; rewrite H; [subst t|]; split; reflexivity.
  - intros kl vl x. unfold on_rt. destruct (deduct_write kl vl (w_rt x)). split; reflexivity.
  - intros [].
Qed.
Lemma silent_acts L a w : act_sets L (fun _ _ => False) a -> ~ is_emit a -> dv_writes (w_drv (snd (do_act L a w))) = dv_writes (w_drv w).
Proof.
  intros HA HE. apply (do_act_rel L (fun _ _ => False) False (fun w _ w' => dv_writes (w_drv w') = dv_writes (w_drv w))); auto.
  - intros x b y z A B. congruence.
  - intros k v b x [].
  - intros kl vl x. unfold on_rt. destruct (deduct_write kl vl (w_rt x)). reflexivity.
Qed.
(** an assignment through [set] *)
Lemma set_effect k v b w : match set k v b w with
  | (Ok _, w') => exists y, coerce v = Ok y /\ dv_writes (w_drv w') = dset k y (dv_writes (w_drv w)) /\ dv_txn (w_drv w') = (if b then dset k y (dv_txn (w_drv w)) else dv_txn (w_drv w)) /\
      dv_events (w_drv w') = dv_events (w_drv w)
  | (Err _, w') => dv_writes (w_drv w') = dv_writes (w_drv w) /\ dv_txn (w_drv w') = dv_txn (w_drv w) /\ dv_events (w_drv w') = dv_events (w_drv w)
  end.
Proof.
  destruct (set_spec k v b w) as [(y & r & t & HC & _ & HO & HD & HT)|(e & r & HO & HD)]; destruct (set k v b w) as [x w']; cbn [fst snd] in *.
  - injection HO as ->. exists y. rewrite HD. subst t. auto.
  - subst x. rewrite HD. auto.
Qed.
Lemma act_logged L b a k s : (b = true -> orm_only (PAct a k)) -> logged L b s (snd (act L a s)).
Proof.
  intros HO. unfold act, on_w.
  assert (H : match do_act L a (s_w s) with
    | (Ok v, w') => let l := [OAct (get_state (s_ctx s)) a] in dv_txn (w_drv w') = dupdate (dv_txn (s_drv s)) (writes_of L l) /\
        dv_events (w_drv w') = dv_events (s_drv s) ++ events_of l /\ (b = true -> dv_writes (w_drv w') = dupdate (dv_writes (s_drv s)) (writes_of L l))
    | (Err _, w') => dv_txn (w_drv w') = dv_txn (s_drv s) /\ dv_events (w_drv w') = dv_events (s_drv s) /\ (b = true -> dv_writes (w_drv w') = dv_writes (s_drv s))
    end).
  { unfold s_drv.
    assert (HQ : act_sets L (fun _ b => b = false) a -> ~ is_emit a -> (b = true -> act_sets L (fun _ _ => False) a) -> write_of L (OAct (get_state (s_ctx s)) a) = None ->
      event_of (OAct (get_state (s_ctx s)) a) = None ->
      match do_act L a (s_w s) with
      | (Ok v, w') => let l := [OAct (get_state (s_ctx s)) a] in dv_txn (w_drv w') = dupdate (dv_txn (w_drv (s_w s))) (writes_of L l) /\
          dv_events (w_drv w') = dv_events (w_drv (s_w s)) ++ events_of l /\ (b = true -> dv_writes (w_drv w') = dupdate (dv_writes (w_drv (s_w s))) (writes_of L l))
      | (Err _, w') => dv_txn (w_drv w') = dv_txn (w_drv (s_w s)) /\ dv_events (w_drv w') = dv_events (w_drv (s_w s)) /\ (b = true -> dv_writes (w_drv w') = dv_writes (w_drv (s_w s)))
      end).
    { intros H1 H2 H3 H4 H5. destruct (quiet_acts L a (s_w s) H1 H2) as [Q1 Q2]. pose proof (fun Hb => silent_acts L a (s_w s) (H3 Hb) H2) as Q3.
      destruct (do_act L a (s_w s)) as [[v|e] w']; cbn [snd] in *; [|auto]. cbv zeta. cbn [writes_of events_of]. rewrite H4, H5, app_nil_r. auto. }
    destruct a; try (solve [apply HQ; cbn; try (intros X; exact X); try reflexivity; try exact I; try (intros; exact I); try (intros; reflexivity); intros Hb; destruct (HO Hb)]); clear HQ.
    - cbn [do_act]. rewrite bind_eq. unfold var_set. rewrite bind_eq.
      set (tc := match v_type x with Some t => _ | None => _ end). assert (HT : snd (tc (s_w s)) = s_w s).
      { unfold tc. destruct (v_type x); [|reflexivity]. destruct (is_none v); [reflexivity|]. unfold bind. cbn [lift]. destruct (isinstance v p); reflexivity. }
      destruct (tc (s_w s)) as [[[]|e] w0]; cbn [snd] in HT; subst w0; [|auto]. pose proof (set_effect (v_key x) v true (s_w s)) as HS.
      destruct (set (v_key x) v true (s_w s)) as [[[]|e] w']; [|destruct HS as (A & B & C); auto]. cbn [ret]. cbv zeta. destruct HS as (y & HC & A & B & C).
      cbn [writes_of events_of write_of event_of]. rewrite HC, app_nil_r. auto.
    - cbn [do_act]. rewrite bind_eq. unfold hash_set. rewrite bind_eq. cbn [lift]. destruct (validate_key (l_ostr L) k0) as [t|e] eqn:EV; [|auto].
      pose proof (set_effect (entry_key h t) v true (s_w s)) as HS.
      destruct (set (entry_key h t) v true (s_w s)) as [[[]|e] w']; [|destruct HS as (A & B & C); auto]. cbn [ret]. cbv zeta. destruct HS as (y & HC & A & B & C).
      cbn [writes_of events_of write_of event_of]. rewrite EV, HC, app_nil_r. auto.
    - cbn [do_act]. pose proof (emit_effect (l_ostr L) event params data (s_w s)) as HE.
      destruct ((let! e := log_decl event params in log_emit (l_ostr L) e data;; ret VNone) (s_w s)) as [[v|e] w']; [|rewrite HE; auto].
      destruct HE as (ev & HE & ->). cbv zeta. cbn [writes_of write_of events_of]. unfold s_ctx, s_rt. rewrite HE. auto. }
  destruct (do_act L a (s_w s)) as [[v|e] w']; destruct H as (H1 & H2 & H3); constructor.
  - exists [OAct (get_state (s_ctx s)) a]. split; [reflexivity|]. cbv zeta in *. split; [exact H1|]. split; [exact H2|exact H3].
  - exists []. cbn [snd]. cbn. rewrite !app_nil_r. split; [reflexivity|]. split; [exact H1|]. split; [exact H2|exact H3].
Qed.
Lemma lines_log ls : forall s, exists l, s_log (snd (foreach line ls s)) = s_log s ++ l /\ Forall (fun o => match o with OLine _ => True | _ => False end) l.
Proof.
  induction ls as [|e ls IH]; intros s; [exists []; rewrite app_nil_r; split; [reflexivity|constructor]|]. cbn [foreach]. unfold bind.
  assert (HL : s_log (snd (line e s)) = s_log s ++ [OLine e]) by (unfold line, on_w; destruct (on_rt (on_tracer (on_line e)) (s_w (note (OLine e) s))); reflexivity).
  destruct (line e s) as [[x|x] s1]; cbn [snd] in *.
  - destruct (IH s1) as (l & H1 & H2). exists (OLine e :: l). rewrite H1, HL, <- app_assoc. split; [reflexivity|constructor; [exact I|exact H2]].
  - exists [OLine e]. split; [exact HL|repeat constructor].
Qed.
Lemma lines_of L l : Forall (fun o => match o with OLine _ => True | _ => False end) l -> writes_of L l = [] /\ events_of l = [].
Proof. induction 1 as [|o l Ho _ IH]; [split; reflexivity|]. destruct o; try contradiction; exact IH. Qed.
Lemma line_logged L b e s : logged L b s (snd (line e s)).
Proof.
  constructor. exists [OLine e]. assert (HL : s_log (snd (line e s)) = s_log s ++ [OLine e]) by (unfold line, on_w; destruct (on_rt (on_tracer (on_line e)) (s_w (note (OLine e) s))); reflexivity).
  rewrite line_drv. cbn. rewrite app_nil_r. auto.
Qed.
Lemma guard_logged L b ls s : logged L b s (snd (guard ls s)).
Proof.
  constructor. rewrite guard_drv. unfold guard. destruct (lines_log ls s) as (l & H1 & H2). destruct (lines_of L l H2) as [H3 H4].
  destruct (foreach line ls s) as [[x|x] s1]; cbn [snd] in *; exists l; rewrite H3, H4, app_nil_r; auto.
Qed.

(** ** Whole transactions *)
Definition orm_if (b : bool) (p : prog) : Prop := b = true -> orm_only p.
Section Logged.
  Variables (L : lang) (b : bool).
  Ltac go thm := eapply thm with (Q := orm_if b) (QM := module_all (orm_if b)) (Rel := fun s _ s' => logged L b s s');
    [ match goal with H : all_code _ _ _ |- _ => apply H end | match goal with H : all_code _ _ _ |- _ => apply H end
    | intros ? H; apply H | intros ??? H; apply H | intros ???? H; apply H
    | intros; apply logged_refl | intros ???? H1 H2; eapply logged_trans; eassumption | intros; apply logged_glue; assumption
    | intros ???? H1 H2; eapply logged_trans; [exact H1|apply (logged_glue L b _ _ H2)] | intros ? ? ? HQ; eapply act_logged; exact HQ
    | intros; apply line_logged | intros; apply guard_logged | .. ].
  Lemma call_logged fuel ch c fn args s : all_code (orm_if b) L s ->
    logged L b s (snd (call L (deeper L fuel) ch c fn args s)) /\ all_code (orm_if b) L (snd (call L (deeper L fuel) ch c fn args s)).
  Proof.
    intros HA. assert (H : logged L b s (snd (call L (deeper L fuel) ch c fn args s)) /\ mods_all (module_all (orm_if b)) (s_mods (snd (call L (deeper L fuel) ch c fn args s)))).
    { go call_rel; [|apply HA]. instantiate (1 := fun _ => PRet VNone). intros _. exact I. }
    split; [apply H|split; [apply HA|apply H]].
  Qed.
  Lemma import_logged fuel kind ch n s : all_code (orm_if b) L s ->
    logged L b s (snd (plain_import L (deeper L fuel) kind ch n s)) /\ all_code (orm_if b) L (snd (plain_import L (deeper L fuel) kind ch n s)).
  Proof.
    intros HA. assert (H : logged L b s (snd (plain_import L (deeper L fuel) kind ch n s)) /\ mods_all (module_all (orm_if b)) (s_mods (snd (plain_import L (deeper L fuel) kind ch n s)))) by (go import_rel; apply HA).
    split; [apply H|split; [apply HA|apply H]].
  Qed.
  Lemma prepare_logged fuel g t s : all_code (orm_if b) L s ->
    logged L b s (snd (prepare L fuel g t s)) /\ all_code (orm_if b) L (snd (prepare L fuel g t s)).
  Proof.
    intros HA. pose (P := fun (s : mach) (_ : bool) (s' : mach) => all_code (orm_if b) L s -> logged L b s s' /\ all_code (orm_if b) L s').
    assert (H : P s (is_ok (fst (prepare L fuel g t s))) (snd (prepare L fuel g t s))); [|apply H, HA].
    apply prepare_rel; unfold P; clear.
    - intros; split; [apply logged_refl|assumption].
    - intros x c y z A1 A2 A3. destruct (A1 A3) as [B1 B2]. destruct (A2 B2) as [C1 C2]. split; [eapply logged_trans; eassumption|assumption].
    - intros x y c G EM EH _ [H1 H2]. split; [apply logged_glue, G|]. split; [exact H1|rewrite EM; exact H2].
    - intros x c e H. split; [|exact H]. constructor. exists []. rewrite !app_nil_r. repeat split.
    - intros x H. apply import_logged, H.
  Qed.
  (** up to the end of the entry function *)
  Lemma call_phase_logged fuel g t s kw s1 r s2 : all_code (orm_if b) L s -> prepare L fuel g t s = (Ok kw, s1) -> entry_call L fuel t kw (primed g t s1) = (r, s2) -> logged L b s s2.
  Proof.
    intros HA Ea Eb. pose proof (prepare_logged fuel g t s HA) as [H HA1]. rewrite Ea in H, HA1. cbn [snd] in *.
    pose proof (call_logged fuel [] (t_contract t) (t_function t) kw (primed g t s1) HA1) as [H2 _]. unfold entry_call in Eb. rewrite Eb in H2. cbn [snd] in H2.
    destruct H as [(l & X1 & X2 & X3 & X4)]. destruct H2 as [(l' & Y1 & Y2 & Y3 & Y4)]. constructor. exists (l ++ l').
    change (s_log (primed g t s1)) with (s_log s1) in Y1. change (s_drv (primed g t s1)) with (s_drv s1) in *.
    rewrite Y1, X1, Y2, X2, Y3, X3, writes_of_app, events_of_app, dupdate_app, <- !app_assoc. repeat (split; [reflexivity|]). intros Hb. rewrite (Y4 Hb), (X4 Hb), dupdate_app. reflexivity.
  Qed.
End Logged.
Lemma orm_if_false L s : all_code (orm_if false) L s.
Proof.
  assert (HE : forall p, each (orm_if false) p) by (induction p; cbn [each]; (split; [discriminate|]); auto).
  assert (HM : forall md, module_all (orm_if false) md) by (intros md; constructor; intros; apply HE).
  split; [split|]; intros; try apply HM. intros n md _. apply HM.
Qed.
