(** * C112: what a whole submission stores *)
From Verif Require Import Model.Base Model.State Model.Dec Model.Time Model.Value Model.Encoder Model.Hdf5 Model.Runtime Model.Driver Model.Orm Model.Exec Model.Executor Model.Client Model.ClientSubmit.
From Verif Require Import Spec.EncSpec Spec.OrmSpec Spec.DriverSpec Spec.ExecSpec Spec.SubmitSpec Spec.SubmissionSpec.
From Verif Require Import Proofs.BaseFacts Proofs.DriverFacts Proofs.OrmFacts Proofs.ExecFacts Proofs.ExecRel Proofs.MeterFacts Proofs.TxFacts Proofs.DrvRel Proofs.CtxFacts Proofs.PhaseRel Proofs.SubmitFacts.
From Verif Require Import Properties.Demo Properties.CtxProps Properties.SubmitProps.
From Coq Require Import Lia.
Local Open Scope nat_scope.

(** ** A key that nothing in the log may have written is as before *)
Definition untouched (L : lang) (k : pystr) (s : mach) (b : bool) (s' : mach) : Prop :=
  based (s_drv s) (s_drv s') /\ rt_env (s_rt s') = rt_env (s_rt s) /\
  exists l, s_log s' = s_log s ++ l /\ (b = true -> (forall o, In o l -> ~ touches L k o) -> dget k (dv_writes (s_drv s')) = dget k (dv_writes (s_drv s))).
Lemma based_refl v : based v v. Proof. repeat split. Qed.
Lemma based_trans a b c : based a b -> based b c -> based a c.
Proof. intros (A1 & A2 & A3) (B1 & B2 & B3). repeat split; congruence. Qed.
Lemma untouched_refl L k s b : untouched L k s b s.
Proof. split; [apply based_refl|]. split; [reflexivity|]. exists []. rewrite app_nil_r. auto. Qed.
Lemma untouched_trans L k s b s1 s2 : untouched L k s true s1 -> untouched L k s1 b s2 -> untouched L k s b s2.
Proof.
  intros (A1 & A2 & l1 & A3 & A4) (B1 & B2 & l2 & B3 & B4). split; [eapply based_trans; eassumption|]. split; [congruence|].
  exists (l1 ++ l2). rewrite B3, A3, app_assoc. split; [reflexivity|]. intros -> H. rewrite (B4 eq_refl), (A4 eq_refl); [reflexivity| |]; intros o HI; apply H, in_or_app; auto.
Qed.
Lemma no_act_untouched L k o : no_act o -> ~ touches L k o.
Proof. destruct o; cbn; auto; intros []. Qed.
Lemma untouched_glue L k s s1 b : glue s s1 -> untouched L k s b s1.
Proof.
  intros [(x & HD) (c & l0 & HR) _ (l & HL & Hl) _]. unfold untouched. rewrite HD. split; [repeat split|]. split; [rewrite HR; reflexivity|]. exists l. split; [exact HL|]. reflexivity.
Qed.
Lemma untouched_after L k s b s1 s2 : untouched L k s b s1 -> glue s1 s2 -> untouched L k s b s2.
Proof.
  intros (A1 & A2 & l1 & A3 & A4) G. destruct (untouched_glue L k _ _ true G) as (B1 & B2 & l2 & B3 & B4). split; [eapply based_trans; eassumption|]. split; [congruence|].
  exists (l1 ++ l2). rewrite B3, A3, app_assoc. split; [reflexivity|]. intros -> H. destruct G as [(x & HD) _ _ _ _]. rewrite HD. cbn [set_reads dv_writes]. apply A4; [reflexivity|]. intros o HI. apply H, in_or_app. auto.
Qed.
Lemma line_rt e s : rt_env (s_rt (snd (line e s))) = rt_env (s_rt s).
Proof.
  unfold line, on_w, on_rt. cbn [s_w note set_log]. unfold on_tracer. unfold s_rt. change (w_rt (s_w (note (OLine e) s))) with (w_rt (s_w s)).
  destruct (on_line e (rt_tracer (w_rt (s_w s)))). reflexivity.
Qed.
Lemma untouched_line L k e s b : untouched L k s b (snd (line e s)).
Proof.
  split; [rewrite line_drv; apply based_refl|]. split; [apply line_rt|]. exists [OLine e]. split.
  - unfold line, on_w. destruct (on_rt (on_tracer (on_line e)) (s_w (note (OLine e) s))). reflexivity.
  - intros _ _. rewrite line_drv. reflexivity.
Qed.
Lemma untouched_lines L k ls : forall s b, untouched L k s b (snd (foreach line ls s)).
Proof.
  induction ls as [|e ls IH]; intros s b; [apply untouched_refl|]. cbn [foreach]. rewrite bind_eq. pose proof (fun b => untouched_line L k e s b) as H.
  destruct (line e s) as [[x|x] s1]; cbn [snd] in *; [eapply untouched_trans; [apply (H true)|apply IH]|apply H].
Qed.
Lemma untouched_guard L k ls s b : untouched L k s b (snd (guard ls s)).
Proof. unfold guard. pose proof (untouched_lines L k ls s b) as H. destruct (foreach line ls s) as [[x|x] s1]; exact H. Qed.
(** one action *)
Definition uw (k : pystr) (w : world) (b : bool) (w' : world) : Prop :=
  based (w_drv w) (w_drv w') /\ rt_env (w_rt w') = rt_env (w_rt w) /\ dget k (dv_writes (w_drv w')) = dget k (dv_writes (w_drv w)).
Definition ub (w : world) (b : bool) (w' : world) : Prop := based (w_drv w) (w_drv w') /\ rt_env (w_rt w') = rt_env (w_rt w).
Lemma set_env_same k v b w : rt_env (w_rt (snd (set k v b w))) = rt_env (w_rt w).
Proof.
  remember (set k v b w) as R eqn:ER. unfold set in ER. rewrite bind_eq in ER. unfold lift in ER.
  destruct (encode_kv_len k v) as [[kl vl]|e]; [|subst R; reflexivity]. rewrite bind_eq in ER. unfold on_rt in ER.
  assert (H : rt_env (snd (deduct_write kl vl (w_rt w))) = rt_env (w_rt w)).
  { unfold deduct_write. destruct (tr_started _); [|reflexivity]. cbv zeta. destruct (Z.ltb _ _); [|reflexivity]. unfold on_tracer. destruct (add_cost _ _). reflexivity. }
  destruct (deduct_write kl vl (w_rt w)) as [[x|e] r1]; [|subst R; exact H].
  unfold on_drv in ER. destruct (set_body _ _ _ _) as [y v1]. subst R. exact H.
Qed.
Lemma set_based k v b w : based (w_drv w) (w_drv (snd (set k v b w))).
Proof. destruct (set_spec k v b w) as [(y & r & t & _ & _ & _ & H & _)|(e & r & _ & H)]; rewrite H; repeat split. Qed.
Lemma set_other k k' v b w : k' <> k -> uw k w true (snd (set k' v b w)).
Proof.
  intros N. split; [apply set_based|]. split; [apply set_env_same|]. destruct (set_spec k' v b w) as [(y & r & t & _ & _ & _ & H & _)|(e & r & _ & H)]; rewrite H; [|reflexivity].
  cbn [set_txn set_writes dv_writes]. rewrite dget_dset. destruct (str_eqb_spec k k') as [->|]; [contradiction|reflexivity].
Qed.
Lemma deduct_env kl vl w : rt_env (w_rt (snd (on_rt (deduct_write kl vl) w))) = rt_env (w_rt w) /\ w_drv (snd (on_rt (deduct_write kl vl) w)) = w_drv w.
Proof.
  unfold on_rt. assert (H : rt_env (snd (deduct_write kl vl (w_rt w))) = rt_env (w_rt w)).
  { unfold deduct_write. destruct (tr_started _); [|reflexivity]. cbv zeta. destruct (Z.ltb _ _); [|reflexivity]. unfold on_tracer. destruct (add_cost _ _). reflexivity. }
  destruct (deduct_write kl vl (w_rt w)). split; [exact H|reflexivity].
Qed.
Lemma act_ub L a w : ub w true (snd (do_act L a w)).
Proof.
  refine (do_act_gen L (fun _ _ => True) True True ub _ _ _ _ _ _ _ a _ _ _ w); auto; unfold ub.
  - intros; split; [apply based_refl|reflexivity].
  - intros x b y z [A1 A2] [B1 B2]. split; [eapply based_trans; eassumption|congruence].
  - intros x r b _. repeat split.
  - intros k v b x _. split; [apply set_based|apply set_env_same].
  - intros kl vl x. destruct (deduct_env kl vl x) as [H1 H2]. rewrite H2. split; [apply based_refl|exact H1].
  - intros _ e x. repeat split.
  - intros _ x y b. repeat split.
  - destruct a; cbn [act_sets]; auto.
Qed.
Lemma act_uw L k a w cs : ~ touches L k (OAct cs a) -> (forall h l, a <> ActHashClear h l) -> uw k w true (snd (do_act L a w)).
Proof.
  intros HT HC. refine (do_act_gen L (fun k' _ => k' <> k) True True (uw k) _ _ _ _ _ _ _ a _ _ _ w); auto; unfold uw.
  - intros; repeat split; reflexivity.
  - intros x b y z (A1 & A2 & A3) (B1 & B2 & B3). split; [eapply based_trans; eassumption|split; congruence].
  - intros x r b _. repeat split.
  - intros k' v b x N. apply (set_other k k' v b x N).
  - intros kl vl x. destruct (deduct_env kl vl x) as [H1 H2]. rewrite H2. split; [apply based_refl|split; [exact H1|reflexivity]].
  - intros _ e x. repeat split.
  - intros _ x y b. repeat split.
  - destruct a; cbn [act_sets touches] in *; auto.
    + intros s HV E. apply HT. exists s. split; [exact HV|exact E].
    + exfalso. apply (HC h args). reflexivity.
    + intros n HI E. apply HT. rewrite <- E. apply entry_keys, HI.
Qed.
Lemma clear_uw L k h args w w' : set_order (l_ord L) -> startswith k (h_key h ++ u ":") = false -> hash_clear (l_ostr L) (l_ord L) h args w = (Ok tt, w') ->
  dget k (dv_writes (w_drv w')) = dget k (dv_writes (w_drv w)).
Proof.
  intros Ord HK. unfold hash_clear, hash_items. rewrite bind_eq. rewrite bind_eq. unfold lift. destruct (prefix_for_args (l_ostr L) h args) as [p|e] eqn:EP; [|discriminate].
  unfold on_drv. pose proof (ro_items (l_ord L) p (w_drv w)) as (x & Hx). destruct (items (l_ord L) p (w_drv w)) as [[i|e] v1] eqn:EI; cbn [snd] in Hx; subst v1; [|discriminate].
  assert (HI : forall j, In j (dkeys i) -> j <> k).
  { intros j Hj ->. pose proof (items_prefix _ _ _ _ _ _ Ord EI Hj) as HS. unfold prefix_for_args in EP. destruct (validate_key _ _) as [m|]; [|discriminate]. cbn [bindr] in EP. injection EP as <-.
    apply startswith_spec in HS as (r & ->). enough (HT : true = false) by discriminate HT. rewrite <- HK. symmetry. apply startswith_spec. eexists. rewrite <- !app_assoc. reflexivity. }
  set (w1 := mkW (set_reads x (w_drv w)) (w_rt w)). change (dget k (dv_writes (w_drv w))) with (dget k (dv_writes (w_drv w1))). clearbody w1. clear EI.
  revert w1. induction (dkeys i) as [|j l IH]; intros w1; cbn [foreach]; [intros E; injection E as <-; reflexivity|].
  rewrite bind_eq. assert (H1 : uw k w1 true (snd (delete j w1))) by (apply set_other, HI; left; reflexivity).
  destruct (delete j w1) as [[[]|e] w2]; cbn [snd] in *; [|discriminate]. intros E. rewrite (IH (fun j' H => HI j' (or_intror H)) _ E). apply H1.
Qed.
Lemma untouched_act L k a s : set_order (l_ord L) -> untouched L k s (is_ok (fst (act L a s))) (snd (act L a s)).
Proof.
  intros Ord. unfold act, on_w. pose proof (act_ub L a (s_w s)) as [H1 H2]. destruct (do_act L a (s_w s)) as [[v|e] w'] eqn:E; cbn [fst snd is_ok] in *.
  2:{ split; [exact H1|]. split; [exact H2|]. exists []. cbn [set_w s_log]. rewrite app_nil_r. split; [reflexivity|discriminate]. }
  split; [exact H1|]. split; [exact H2|]. eexists. split; [reflexivity|]. intros _ HT. specialize (HT _ (or_introl eq_refl)).
  change (dget k (dv_writes (w_drv w')) = dget k (dv_writes (w_drv (s_w s)))).
  destruct a as [x|x y|h j|h j y|h l|h l|ev p d|salt|d|c n|c n y|nm code o now dev];
    try (pose proof (act_uw L k _ (s_w s) _ HT ltac:(intros; discriminate)) as (_ & _ & H); rewrite E in H; exact H).
  cbn [do_act] in E. rewrite bind_eq in E. destruct (hash_clear (l_ostr L) (l_ord L) h l (s_w s)) as [[[]|e] w2] eqn:EC; [|discriminate E]. cbn [ret] in E. injection E as _ <-.
  eapply clear_uw; [exact Ord| |exact EC]. cbn [touches] in HT. destruct (startswith k (h_key h ++ u ":")); [contradiction HT; reflexivity|reflexivity].
Qed.
(** running the submitted code *)
Lemma exec_untouched L k fuel ch n code args s : set_order (l_ord L) ->
  untouched L k s (is_ok (fst (exec_code L (deeper L fuel) ch n code args s))) (snd (exec_code L (deeper L fuel) ch n code args s)).
Proof.
  intros Ord.
  assert (H : untouched L k s (is_ok (fst (run L fuel ch (PExec n code args PRet) s))) (snd (run L fuel ch (PExec n code args PRet) s)) /\ mods_all (fun _ => True) (s_mods (snd (run L fuel ch (PExec n code args PRet) s)))).
  { apply run_rel with (Q := fun _ => True) (QM := fun _ => True); auto; try (intros; apply each_any).
    - intros; apply untouched_refl.
    - intros; eapply untouched_trans; eassumption.
    - intros; apply untouched_glue; assumption.
    - intros; eapply untouched_after; eassumption.
    - intros; apply untouched_act, Ord.
    - intros; apply untouched_line.
    - intros; apply untouched_guard.
    - intros ???; exact I. }
  destruct H as [H _]. assert (E : run L fuel ch (PExec n code args PRet) s = bind (exec_code L (deeper L fuel) ch n code args) (fun v => ret v) s) by (destruct fuel; reflexivity).
  rewrite E, bind_eq in H. destruct (exec_code L (deeper L fuel) ch n code args s) as [[v|e] s1]; exact H.
Qed.
Lemma ends_go L R (Q : pyval -> Prop) p : forall ch s v s', ends_in Q p -> go L R ch p s = (Ok v, s') -> Q v.
Proof.
  induction p as [v0|e|e k IH|a k IH|k IH|n k IH|kd n k IH|c f args k IH|ex b IHb k IH|ls ok k IH|n code args k IH]; intros ch s v s' HE; cbn [go ends_in] in *.
  - intros E. injection E as -> _. exact HE.
  - discriminate.
  - rewrite bind_eq. destruct (line e s) as [[x|x] s1]; [|discriminate]. apply IH, HE.
  - rewrite bind_eq. destruct (act L a s) as [[x|x] s1]; [|discriminate]. apply IH, HE.
  - rewrite bind_eq. cbn [gets]. apply IH, HE.
  - rewrite bind_eq. cbn [gets]. destruct (dget n (rt_env (s_rt s))) as [x|]; [|discriminate]. apply IH, HE.
  - rewrite bind_eq. destruct (import L R kd ch n s) as [[x|x] s1]; [|discriminate]. apply IH, HE.
  - rewrite bind_eq. destruct (call L R ch c f args s) as [[x|x] s1]; [|discriminate]. apply IH, HE.
  - rewrite bind_eq. destruct (match ex with Some c => _ | None => _ end) as [[x|x] s1]; [|discriminate]. apply IH, HE.
  - rewrite bind_eq. destruct (guard ls s) as [[x|x] s1]; [|discriminate]. apply IH, HE.
  - rewrite bind_eq. destruct (exec_code L R ch n code args s) as [[x|x] s1]; [|discriminate]. apply IH, HE.
Qed.
Lemma exec_now L fuel ch n code args s v s' : leaves_now L n code -> set_order (l_ord L) -> exec_code L (deeper L fuel) ch n code args s = (Ok v, s') -> v = pget (u "now") (rt_env (s_rt s)).
Proof.
  intros HN Ord E. pose proof (exec_untouched L [] fuel ch n code args s Ord) as (_ & HE & _). rewrite E in HE. cbn [snd] in HE. rewrite <- HE. clear HE.
  unfold exec_code in E. rewrite bind_eq in E. unfold lift at 1 in E. destruct (l_compile L n code) as [text|] eqn:EC; [|discriminate].
  rewrite bind_eq in E. unfold lift at 1 in E. destruct (l_marshal L text) as [blob|] eqn:EM; [|discriminate].
  rewrite bind_eq in E. unfold lift at 1 in E. destruct (l_interp L blob) as [md|] eqn:EI; [|discriminate].
  rewrite bind_eq in E. destruct (deeper L fuel ch (m_init md) s) as [[top|] s1] eqn:ET; [|discriminate].
  assert (HT : top = VNone). { destruct fuel as [|m]; [discriminate ET|]. cbn [deeper] in ET. rewrite run_eq in ET. exact (ends_go _ _ _ _ _ _ _ _ (HN _ _ _ EC EM EI) ET). }
  subst top. rewrite bind_eq in E. match type of E with (let (_, _) := ?m in _) = _ => destruct m as [[x|] s2]; [|discriminate] end. cbn [is_none gets] in E. injection E as <- <-. reflexivity.
Qed.

(** ** Up to the call of submit_contract *)
Record soft (s s' : mach) : Prop := mkSoft {
  so_drv : exists x, s_drv s' = set_reads x (s_drv s);
  so_log : exists l, s_log s' = s_log s ++ l /\ Forall no_act l }.
Lemma soft_refl s : soft s s.
Proof. constructor; [exists (dv_reads (s_drv s)); symmetry; apply set_reads_same|exists []; rewrite app_nil_r; auto]. Qed.
Lemma soft_trans a b c : soft a b -> soft b c -> soft a c.
Proof.
  intros [(x & A) (l & B & C)] [(y & D) (m & E & F)]. constructor; [exists y; rewrite D, A; reflexivity|]. exists (l ++ m). rewrite E, B, app_assoc. split; [reflexivity|apply Forall_app; auto].
Qed.
Lemma soft_same s s' : s_drv s' = s_drv s -> s_log s' = s_log s -> soft s s'.
Proof. intros A B. constructor; [exists (dv_reads (s_drv s)); rewrite A; symmetry; apply set_reads_same|exists []; rewrite app_nil_r; auto]. Qed.
Lemma soft_glue s s' : glue s s' -> soft s s'. Proof. intros [A _ _ B _]. constructor; assumption. Qed.
Lemma read_env {A} (m : st driver A) s : rt_env (s_rt (snd (on_w (on_drv m) s))) = rt_env (s_rt s) /\ s_ctx (snd (on_w (on_drv m) s)) = s_ctx s.
Proof. unfold on_w, on_drv. destruct (m _). split; reflexivity. Qed.
Lemma admission_soft g t s : soft s (snd (admission g t s)) /\ rt_env (s_rt (snd (admission g t s))) = rt_env (s_rt s) /\ s_mods (snd (admission g t s)) = s_mods s.
Proof.
  unfold admission. destruct (metered g t); [|split; [apply soft_refl|split; reflexivity]]. rewrite bind_eq. destruct (g_bypass_balance g).
  - cbn [ret]. rewrite bind_eq. cbn [lift]. destruct (enough (VInt 9999999) (t_rate t) (t_stamps t)) as [[]|]; (split; [apply soft_refl|split; reflexivity]).
  - rewrite bind_eq. assert (G : glue s (snd (on_w (on_drv (get (balance_key g t))) s))) by (apply glue_read; [apply ro_get|apply rg_get]). apply soft_glue in G.
    destruct (read_env (get (balance_key g t)) s) as [HE _]. pose proof (on_w_mods (on_drv (get (balance_key g t))) s) as HM.
    destruct (on_w (on_drv (get (balance_key g t))) s) as [[b|e] s1]; cbn [snd] in *; [|auto]. cbn [lift]. destruct (balance_value b) as [v|e]; [|auto].
    rewrite bind_eq. cbn [lift]. destruct (enough v (t_rate t) (t_stamps t)) as [[]|]; auto.
Qed.
Lemma base_soft t s s' : base_context t s = (Ok tt, s') -> soft s s' /\ rt_env (s_rt s') = rt_env (s_rt s) /\ s_mods s' = s_mods s /\
  c_this (cx_base (s_ctx s')) = Some (t_contract t) /\ c_caller (cx_base (s_ctx s')) = Some (t_sender t) /\ c_signer (cx_base (s_ctx s')) = Some (t_sender t).
Proof.
  unfold base_context. rewrite bind_eq. assert (G : glue s (snd (on_w (on_drv (get_owner (t_contract t))) s))) by (apply glue_read; [apply ro_owner|apply rg_owner]). apply soft_glue in G.
  destruct (read_env (get_owner (t_contract t)) s) as [HE _]. pose proof (on_w_mods (on_drv (get_owner (t_contract t))) s) as HM.
  destruct (on_w (on_drv (get_owner (t_contract t))) s) as [[o|e] s1]; cbn [snd] in *; [|discriminate]. rewrite bind_eq. cbn [modify]. rewrite bind_eq. cbn [gets].
  destruct (_ || _)%bool; [|discriminate]. cbn [ret]. intros E. injection E as <-. split; [eapply soft_trans; [exact G|apply soft_same; reflexivity]|]. split; [exact HE|]. split; [exact HM|]. repeat split.
Qed.
Lemma prepare_submission L fuel g t s kw s1 : s_mods s = [] -> l_host L SUBMISSION = None -> submission_stored L s -> t_contract t = SUBMISSION ->
  prepare L fuel g t s = (Ok kw, s1) ->
  soft s s1 /\ dget SUBMISSION (s_mods s1) = Some (Some (submission_modul L)) /\ rt_env (s_rt s1) = dupdate (rt_env (s_rt s)) (t_env t) /\
  c_this (cx_base (s_ctx s1)) = Some SUBMISSION /\ c_caller (cx_base (s_ctx s1)) = Some (t_sender t) /\ c_signer (cx_base (s_ctx s1)) = Some (t_sender t) /\
  float_args (t_kwargs t) = Ok kw.
Proof.
  intros HM HH HS HC E. unfold prepare in E. rewrite bind_eq in E. destruct (admission_soft g t s) as (A1 & A2 & A3). destruct (admission g t s) as [[[]|] sa]; [|discriminate E]. cbn [snd] in *.
  rewrite bind_eq in E. cbn [modify] in E. set (sb := upd_r _ sa) in E. assert (B1 : soft s sb) by (eapply soft_trans; [exact A1|apply soft_same; reflexivity]).
  assert (B2 : rt_env (s_rt sb) = dupdate (rt_env (s_rt s)) (t_env t)) by (rewrite <- A2; reflexivity). assert (B3 : s_mods sb = []) by (rewrite <- HM; exact A3). clearbody sb. clear A1 A2 A3 sa.
  rewrite bind_eq in E. destruct (base_context t sb) as [[[]|] sc] eqn:EB; [|discriminate E]. apply base_soft in EB as (C1 & C2 & C3 & C4 & C5 & C6).
  assert (D1 : soft s sc) by (eapply soft_trans; eassumption). rewrite B2 in C2. rewrite B3 in C3. rewrite HC in C4. clear B1 B2 B3 C1 sb.
  rewrite bind_eq in E. unfold find_function in E. rewrite bind_eq in E. rewrite HC in E.
  assert (F : forall sd, plain_import L (deeper L fuel) Lib [] SUBMISSION sc = (Ok tt, sd) -> 
    (soft sc sd /\ dget SUBMISSION (s_mods sd) = Some (Some (submission_modul L)) /\ rt_env (s_rt sd) = rt_env (s_rt sc) /\ s_ctx sd = s_ctx sc) \/ dget SUBMISSION (s_mods sd) = None).
  { intros sd. unfold plain_import. rewrite bind_eq. cbn [gets]. assert (ED : dmem SUBMISSION (s_mods sc) = false) by (rewrite C3; reflexivity). rewrite ED.
    destruct (l_sysmod L SUBMISSION). { intros EI. right. unfold hosted, imported in EI. rewrite bind_eq in EI. cbn [modify] in EI. injection EI as <-. cbn [s_mods note set_log set_hosts]. rewrite C3. reflexivity. }
    rewrite bind_eq. assert (G : glue sc (snd (on_w (on_drv (get_contract SUBMISSION)) sc))) by (apply glue_read; [apply ro_get|apply rg_get]). apply soft_glue in G.
    destruct (read_env (get_contract SUBMISSION) sc) as [GE GC]. pose proof (on_w_mods (on_drv (get_contract SUBMISSION)) sc) as GM.
    destruct (on_w (on_drv (get_contract SUBMISSION)) sc) as [[c|] s5]; [|discriminate]. cbn [snd] in *. destruct (negb (is_none c)).
    2:{ rewrite HH. discriminate. }
    rewrite bind_eq. unfold load. set (s6 := set_mods _ s5). assert (G6 : soft sc s6) by (eapply soft_trans; [exact G|apply soft_same; reflexivity]).
    assert (E6 : rt_env (s_rt s6) = rt_env (s_rt sc)) by exact GE. assert (X6 : s_ctx s6 = s_ctx sc) by exact GC.
    assert (HF : fst (fetch L SUBMISSION s6) = Ok (submission_modul L)).
    { rewrite <- HS. apply fetch_find. destruct (soft_trans _ _ _ D1 G6) as [(x & HD) _]. rewrite HD. apply find_set_reads. }
    assert (GF : glue s6 (snd (fetch L SUBMISSION s6)) /\ s_mods (snd (fetch L SUBMISSION s6)) = s_mods s6).
    { destruct (fetch_ok L (fun _ => True) (fun _ _ _ => I) SUBMISSION s6) as (Q1 & Q2 & _). split; assumption. }
    assert (GE6 : rt_env (s_rt (snd (fetch L SUBMISSION s6))) = rt_env (s_rt s6) /\ s_ctx (snd (fetch L SUBMISSION s6)) = s_ctx s6).
    { unfold fetch. rewrite bind_eq. destruct (read_env (get_compiled SUBMISSION) s6) as [Q1 Q2]. destruct (on_w (on_drv (get_compiled SUBMISSION)) s6) as [[c6|] s7]; cbn [snd] in *; [|auto].
      rewrite bind_eq. unfold lift. destruct (match c6 with VNone => _ | _ => _ end) as [b6|]; [|auto]. destruct (l_interp L b6); auto. }
    clearbody s6. clear G GE GC GM s5. rewrite bind_eq. destruct (fetch L SUBMISSION s6) as [[md|] s7]; cbn [fst snd] in *; [|discriminate HF]. injection HF as ->.
    rewrite bind_eq. destruct fuel as [|m]; [discriminate|]. cbn [deeper]. rewrite run_eq. cbn [submission_modul m_init go ret]. unfold imported. cbn [modify]. intros EI. injection EI as <-. left.
    destruct GF as [G1 G2]. destruct GE6 as [G3 G4]. split; [|split; [|split]].
    - eapply soft_trans; [exact G6|]. eapply soft_trans; [apply soft_glue, G1|]. constructor; [exists (dv_reads (s_drv s7)); symmetry; apply set_reads_same|].
      eexists. split; [reflexivity|]. repeat constructor.
    - cbn [s_mods note set_log set_w set_mods]. rewrite dget_dset, str_eqb_refl. reflexivity.
    - cbn. rewrite <- E6, <- G3. reflexivity.
    - rewrite <- X6, <- G4. reflexivity. }
  destruct (plain_import L (deeper L fuel) Lib [] SUBMISSION sc) as [[[]|] sd]; [|discriminate E]. specialize (F sd eq_refl).
  rewrite bind_eq in E. cbn [gets] in E. destruct F as [(F1 & F2 & F3 & F4)|F]; [|rewrite F, HH in E; discriminate E].
  rewrite F2 in E. match type of E with context [dget (t_function t) ?m] => destruct (dget (t_function t) m); [|discriminate E] end. cbn [ret] in E.
  rewrite bind_eq in E. unfold submission_name in E. rewrite HC in E. rewrite str_eqb_refl in E. cbn [modify] in E. unfold lift in E. injection E as E <-.
  split; [eapply soft_trans; [exact D1|]; eapply soft_trans; [exact F1|apply soft_same; reflexivity]|]. split; [exact F2|]. split; [rewrite <- C2, <- F3; reflexivity|].
  cbn. change (rt_ctx (w_rt (s_w sd))) with (s_ctx sd). rewrite F4. auto.
Qed.

(** ** What set_contract stores under a name that has no code *)
Definition pends (w : world) (k : pystr) (x : pyval) : Prop := exists y, coerce x = Ok y /\ dget k (dv_writes (w_drv w)) = Some y.
Lemma set_pends k x b w w' : set k x b w = (Ok tt, w') -> pends w' k x.
Proof.
  intros E. destruct (set_spec k x b w) as [(y & r & t & HC & _ & _ & H & _)|(e & r & H & _)]; rewrite E in H; cbn [fst snd] in H; [|discriminate H].
  exists y. split; [exact HC|]. rewrite H. cbn [set_txn set_writes dv_writes]. rewrite dget_dset, str_eqb_refl. reflexivity.
Qed.
Lemma set_keeps k k' x y b w w' : k <> k' -> set k' y b w = (Ok tt, w') -> pends w k x -> pends w' k x.
Proof.
  intros N E (z & H1 & H2). exists z. split; [exact H1|]. destruct (set_other k k' y b w) as (_ & _ & H); [congruence|]. rewrite E in H. cbn [snd] in H. rewrite H. exact H2.
Qed.
Lemma key_ne n a b : make_key n a [] = make_key n b [] -> a = b.
Proof. intros E. change (make_key n a []) with (n ++ (DOT :: a)) in E. change (make_key n b []) with (n ++ (DOT :: b)) in E. apply app_inv_head in E. congruence. Qed.
Lemma set_contract_full compile n code o now dev w w' : find (make_key n CODE_KEY []) (w_drv w) = Ok VNone -> set_contract compile n code o now dev w = (Ok tt, w') ->
  exists blob, compile code = Ok blob /\ pends w' (make_key n CODE_KEY []) (VStr code) /\ pends w' (make_key n COMPILED_KEY []) (VBytes blob) /\
    pends w' (make_key n OWNER_KEY []) o /\ pends w' (make_key n TIME_KEY []) now /\ pends w' (make_key n DEVELOPER_KEY []) dev.
Proof.
  intros HF H. unfold set_contract in H. rewrite bind_eq in H. unfold on_drv in H. unfold get_contract, get_var in H.
  pose proof (get_result (make_key n CODE_KEY []) (w_drv w)) as HG. destruct (get (make_key n CODE_KEY []) (w_drv w)) as [[c|e] v1]; cbn [fst] in HG; rewrite HF in HG; [|discriminate HG].
  injection HG as ->. cbn [is_none] in H. rewrite bind_eq in H. unfold lift in H. destruct (compile code) as [blob|e]; [|discriminate]. exists blob. split; [reflexivity|].
  set (w1 := mkW v1 (w_rt w)) in H. clearbody w1. unfold set_var in H.
  rewrite bind_eq in H. destruct (set (make_key n CODE_KEY []) (VStr code) false w1) as [[[]|] w2] eqn:E1; [|discriminate H].
  rewrite bind_eq in H. destruct (set (make_key n COMPILED_KEY []) (VBytes blob) false w2) as [[[]|] w3] eqn:E2; [|discriminate H].
  rewrite bind_eq in H. destruct (set (make_key n OWNER_KEY []) o false w3) as [[[]|] w4] eqn:E3; [|discriminate H].
  rewrite bind_eq in H. destruct (set (make_key n TIME_KEY []) now false w4) as [[[]|] w5] eqn:E4; [|discriminate H].
  pose proof (set_pends _ _ _ _ _ E1) as P1. pose proof (set_pends _ _ _ _ _ E2) as P2. pose proof (set_pends _ _ _ _ _ E3) as P3. pose proof (set_pends _ _ _ _ _ E4) as P4. pose proof (set_pends _ _ _ _ _ H) as P5.
  assert (NE : forall a b, a <> b -> make_key n a [] <> make_key n b []) by (intros a b N E; apply N, (key_ne _ _ _ E)).
  assert (D12 : CODE_KEY <> COMPILED_KEY) by (vm_compute; discriminate). assert (D13 : CODE_KEY <> OWNER_KEY) by (vm_compute; discriminate). assert (D14 : CODE_KEY <> TIME_KEY) by (vm_compute; discriminate). assert (D15 : CODE_KEY <> DEVELOPER_KEY) by (vm_compute; discriminate).
  assert (D23 : COMPILED_KEY <> OWNER_KEY) by (vm_compute; discriminate). assert (D24 : COMPILED_KEY <> TIME_KEY) by (vm_compute; discriminate). assert (D25 : COMPILED_KEY <> DEVELOPER_KEY) by (vm_compute; discriminate).
  assert (D34 : OWNER_KEY <> TIME_KEY) by (vm_compute; discriminate). assert (D35 : OWNER_KEY <> DEVELOPER_KEY) by (vm_compute; discriminate). assert (D45 : TIME_KEY <> DEVELOPER_KEY) by (vm_compute; discriminate).
  split; [|split; [|split; [|split]]].
  - apply (set_keeps _ _ _ _ _ _ _ (NE _ _ D15) H), (set_keeps _ _ _ _ _ _ _ (NE _ _ D14) E4), (set_keeps _ _ _ _ _ _ _ (NE _ _ D13) E3), (set_keeps _ _ _ _ _ _ _ (NE _ _ D12) E2), P1.
  - apply (set_keeps _ _ _ _ _ _ _ (NE _ _ D25) H), (set_keeps _ _ _ _ _ _ _ (NE _ _ D24) E4), (set_keeps _ _ _ _ _ _ _ (NE _ _ D23) E3), P2.
  - apply (set_keeps _ _ _ _ _ _ _ (NE _ _ D35) H), (set_keeps _ _ _ _ _ _ _ (NE _ _ D34) E4), P3.
  - apply (set_keeps _ _ _ _ _ _ _ (NE _ _ D45) H), P4.
  - exact P5.
Qed.
Lemma float_args_get kw l k : float_args kw = Ok l -> match dget k kw with None => dget k l = None | Some v => exists y, dget k l = Some y /\ coerce y = coerce v /\ (forall x, v = VStr x -> y = v) end.
Proof.
  revert l. induction kw as [|[j v] r IH]; intros l E; [injection E as <-; reflexivity|].
  assert (Q : exists y q, float_args r = Ok q /\ l = (j, y) :: q /\ coerce y = coerce v /\ (forall x, v = VStr x -> y = v)).
  { unfold float_args in E. cbn [seqr fst snd] in E. fold (float_args r) in E. destruct v; try (cbn [bindr] in E; destruct (float_args r) as [q|]; [|discriminate E]; cbn [bindr] in E; injection E as <-; eexists _, q; repeat split; auto).
    cbn [bindr] in E. destruct (cd_of_str repr) as [d|] eqn:ED; [|discriminate E]. cbn [bindr] in E. destruct (float_args r) as [q|]; [|discriminate E]. cbn [bindr] in E. injection E as <-.
    exists (VDec d), q. split; [reflexivity|]. split; [reflexivity|]. split; [cbn [coerce]; rewrite ED; reflexivity|discriminate]. }
  destruct Q as (y & q & F & -> & C & S). cbn [dget]. destruct (str_eqb k j); [exists y; auto|]. apply IH, F.
Qed.
(** ** The body of submit_contract *)
Lemma submit_body_full L fuel ch name code owner args s v s' : set_order (l_ord L) -> leaves_now L name code ->
  run L fuel ch (submit_contract_body L name code owner args) s = (Ok v, s') ->
  exists text now dev l cs, l_compile L name code = Ok text /\ dev = of_name (c_caller (get_state (s_ctx s))) /\
    now = (let n := pget (u "now") (rt_env (s_rt s)) in if is_none n then l_boot L else n) /\
    s_log s' = s_log s ++ l ++ [OAct cs (ActSetContract name text owner now dev)] /\ based (s_drv s) (s_drv s') /\ find (make_key name CODE_KEY []) (s_drv s) = Ok VNone /\
    ((forall o, In o l -> ~ touches L (make_key name CODE_KEY []) o) ->
      exists blob, l_marshal L text = Ok blob /\ pends (s_w s') (make_key name CODE_KEY []) (VStr text) /\ pends (s_w s') (make_key name COMPILED_KEY []) (VBytes blob) /\
        pends (s_w s') (make_key name OWNER_KEY []) owner /\ pends (s_w s') (make_key name TIME_KEY []) now /\ pends (s_w s') (make_key name DEVELOPER_KEY []) dev).
Proof.
  intros Ord HN H. rewrite run_eq in H. unfold submit_contract_body in H. cbn [go] in H. rewrite bind_eq in H. cbn [gets] in H.
  set (cs := get_state (s_ctx s)) in *.
  destruct (negb (ostr_eqb (c_caller cs) (Some (u "sys"))) && negb (startswith name (u "con_")))%bool; [discriminate|].
  destruct (negb (ostr_eqb (c_caller cs) (c_signer cs))); [discriminate|]. destruct (negb (Nat.leb (List.length name) 64)); [discriminate|]. destruct (negb (l_islower L name)); [discriminate|].
  unfold submit_prog in H. cbn [go] in H. rewrite bind_eq in H. pose proof (untouched_act L (make_key name CODE_KEY []) (ActGetVar name CODE_KEY) s Ord) as U1.
  assert (E1 : exists c sx, act L (ActGetVar name CODE_KEY) s = (Ok c, sx) /\ find (make_key name CODE_KEY []) (s_drv s) = Ok c /\ s_log sx = s_log s ++ [OAct cs (ActGetVar name CODE_KEY)] \/ exists e, act L (ActGetVar name CODE_KEY) s = (Err e, sx)).
  { unfold act, on_w. cbn [do_act]. unfold on_drv, get_var. pose proof (get_result (make_key name CODE_KEY []) (w_drv (s_w s))) as HF.
    destruct (get (make_key name CODE_KEY []) (w_drv (s_w s))) as [[c|e] v1]; cbn [fst] in HF; [exists c|exists VNone]; eexists; [left|right; eexists; reflexivity]. split; [reflexivity|]. split; [symmetry; exact HF|reflexivity]. }
  destruct E1 as (c & sx & [(E1 & HF & HLX)|(e & E1)]); rewrite E1 in H, U1; cbn [fst snd is_ok] in *; [|discriminate H].
  destruct (is_none c) eqn:EN; cbn [negb] in H; [|cbn [go raise] in H; discriminate]. assert (c = VNone) as -> by (destruct c; [reflexivity|discriminate EN..]).
  cbn [go] in H. rewrite bind_eq in H. pose proof (exec_untouched L (make_key name CODE_KEY []) fuel ch name code args sx Ord) as U2.
  destruct (exec_code L (deeper L fuel) ch name code args sx) as [[now|e] s2] eqn:EX; [|discriminate]. cbn [fst snd is_ok] in U2. pose proof (exec_now _ _ _ _ _ _ _ _ _ HN Ord EX) as HW.
  destruct (l_compile L name code) as [text|e]; [|discriminate]. cbn [go] in H. rewrite bind_eq in H.
  set (tm := if is_none now then l_boot L else now) in H.
  unfold act, on_w in H. cbn [do_act] in H. rewrite bind_eq in H. pose proof (act_ub L (ActSetContract name text owner tm (of_name (c_caller cs))) (s_w s2)) as [AB _]. cbn [do_act] in AB. rewrite bind_eq in AB.
  destruct (set_contract (l_marshal L) name text owner tm (of_name (c_caller cs)) (s_w s2)) as [[[]|e] w3] eqn:ES; [|discriminate].
  cbn [ret snd] in H, AB. injection H as _ <-. destruct U1 as (A1 & A2 & l1 & A3 & A4). destruct U2 as (B1 & B2 & l2 & B3 & B4).
  exists text, tm, (of_name (c_caller cs)), (l1 ++ l2), (get_state (s_ctx s2)). split; [reflexivity|]. split; [reflexivity|].
  split. { unfold tm. rewrite HW, A2. reflexivity. }
  split. { cbn [s_log note set_log set_w]. rewrite B3, A3, <- !app_assoc. reflexivity. }
  split. { eapply based_trans; [exact A1|]. eapply based_trans; [exact B1|exact AB]. }
  split; [exact HF|]. intros HT.
  assert (HE : dget (make_key name CODE_KEY []) (dv_writes (s_drv s2)) = dget (make_key name CODE_KEY []) (dv_writes (s_drv s))).
  { rewrite (B4 eq_refl), (A4 eq_refl); [reflexivity| |]; intros o HI; apply HT, in_or_app; auto. }
  assert (HA : find (make_key name CODE_KEY []) (w_drv (s_w s2)) = Ok VNone).
  { rewrite <- HF. destruct (based_trans _ _ _ A1 B1) as (Q1 & Q2 & Q3). change (w_drv (s_w s2)) with (s_drv s2). unfold find, pget. rewrite HE, Q1, Q2, Q3. reflexivity. }
  destruct (set_contract_full _ _ _ _ _ _ _ _ HA ES) as (blob & R). exists blob. exact R.
Qed.

(** ** C112 *)
Lemma holds_pends s s' name k x : In k (contract_entries name) -> dv_bypass (s_drv s') = false -> pends (s_w s) k x -> dget k (dv_writes (s_drv s')) = dget k (dv_writes (s_drv s)) -> holds s' k x.
Proof.
  intros _ HB (y & H1 & H2) E. exists y. split; [exact H1|]. rewrite E. split; [exact H2|]. intros HN. unfold reads_as. rewrite get_result. apply find_pending; [exact HB| |exact HN]. rewrite E. exact H2.
Qed.
(** Full statement: a transaction that submits code under a name, when it succeeds, leaves the compiled code under that name, with the owner that was
    given, the sender as developer and the transaction's time.
    Proved for transactions on the submission contract of /repo, without auto-commit, if
    - nothing else in the transaction may have written the code of that name (see C62_replaced_refuted),
    - the code does not assign the global 'now' (C112_time_refuted), and
    - the fee, if any, is not taken from one of the entries.
    When there is no 'now' in the environment the time is the one when the library was imported ([l_boot]), which is not the transaction's. *)
Theorem C112_transaction_partial L fuel g t s out s' name code :
  set_order (l_ord L) -> s_mods s = [] -> l_host L SUBMISSION = None -> submission_stored L s -> dv_bypass (s_drv s) = false ->
  t_contract t = SUBMISSION -> t_function t = u "submit_contract" -> t_auto t = false ->
  dget (u "name") (t_kwargs t) = Some (VStr name) -> dget (u "code") (t_kwargs t) = Some (VStr code) ->
  (metered g t = true -> ~ In (balance_key g t) (contract_entries name)) -> leaves_now L name code ->
  execute L fuel g t s = (Ok out, s') -> o_status out = 0%Z -> written_once L (name ++ u ".__code__") (s_log s') ->
  reads_as s (name ++ u ".__code__") = Ok VNone /\
  exists text blob, l_compile L name code = Ok text /\ l_marshal L text = Ok blob /\ as_submitted L t s s' name text blob.
Proof.
  intros Ord HM HH HS HB HC HF HA HN HD HFee HNow HE HO HW.
  apply execute_inv in HE as (_ & r & s1 & w & s3 & HP & _ & EF & -> & ->). cbn [o_status] in HO.
  inversion HP as [e sa Ea X1|kw sa e sb Ea Eb X1|kw sa v sb e sc Ea Eb A' Ec X1|kw sa v sb sc Ea Eb Ec X1]; subst; try discriminate HO. clear HO HP.
  assert (HS0 : submission_stored L (began s)) by (unfold submission_stored in *; rewrite <- HS; apply fetch_find; reflexivity).
  destruct (prepare_submission _ _ _ _ _ _ _ (HM : s_mods (began s) = []) HH HS0 HC Ea) as ([(x & SD) (l0 & SL & SN)] & SM & SE & C1 & C2 & C3 & KW).
  change (dv_writes (s_drv (began s))) with (dv_writes (s_drv s)) in *. change (s_log (began s)) with (@nil obs) in SL. cbn [app] in SL.
  unfold entry_call in Eb. rewrite HC, HF in Eb. rewrite call_submit in Eb by exact SM.
  set (sp := primed g t sa) in *. assert (HL : List.length (cx_stack (s_ctx sp)) < RECURSION_LIMIT) by (change (cx_stack (s_ctx sp)) with (stack_of (primed g t sa)); rewrite primed_stack; apply Nat.ltb_lt; reflexivity).
  pose proof (float_args_get _ _ (u "name") KW) as KN. rewrite HN in KN. destruct KN as (yn & KN & _ & KN'). rewrite (KN' _ eq_refl) in KN.
  pose proof (float_args_get _ _ (u "code") KW) as KC. rewrite HD in KC. destruct KC as (yc & KC & _ & KC'). rewrite (KC' _ eq_refl) in KC.
  rewrite KN, KC in Eb. unfold in_body, with_export in Eb.
  destruct (enter SUBMISSION sp) as [[[]|e] se] eqn:EE; [|discriminate Eb]. destruct (enter_context _ _ _ EE HL) as [E1 E2]. destruct (enter_glue SUBMISSION sp) as [[(y & GD) (gc & gl & GR) _ (lg & GL & GN) _] _]. rewrite EE in GD, GR, GL. cbn [snd] in GD, GR, GL.
  assert (HCI : SubmitSpec.caller_in sp SUBMISSION = Some (t_sender t)).
  { unfold SubmitSpec.caller_in. cbv zeta. assert (GS : get_state (s_ctx sp) = cx_base (s_ctx sa)). { unfold get_state. change (cx_stack (s_ctx sp)) with (stack_of (primed g t sa)). rewrite primed_stack. apply primed_base. }
    rewrite GS, C1, C2. unfold ostr_eqb. rewrite str_eqb_refl. reflexivity. }
  set (s1' := note _ se) in Eb.
  destruct fuel as [|n]; [discriminate Eb|]. cbn [deeper] in Eb.
  destruct (dict_args (pget (u "constructor_args") kw)) as [args|]; [|rewrite run_eq in Eb; discriminate Eb].
  destruct (run L n [SUBMISSION] (submit_contract_body L name code (pget (u "owner") kw) args) s1') as [rr s2] eqn:ER. injection Eb as -> <-.
  apply submit_body_full in ER; [|exact Ord|exact HNow]. destruct ER as (text & now & dev & l & cs & R1 & R2 & R3 & R4 & R5 & R6 & R7).
  (* the log of the whole transaction *)
  destruct (auto_same t (upd_ctx pop_state s2) _ _ Ec) as (QL & QR & QM & _ & _ & QD). specialize (QD HA).
  destruct (restore_same t (dv_writes (s_drv s)) (Ok (v, dv_txn (s_drv (upd_ctx pop_state s2)), dv_events (s_drv (upd_ctx pop_state s2)))) s1) as (RL & RR & _).
  assert (TR : tr_started (rt_tracer (s_rt (restore t (dv_writes (s_drv s)) (Ok (v, dv_txn (s_drv (upd_ctx pop_state s2)), dv_events (s_drv (upd_ctx pop_state s2)))) s1))) = false) by (rewrite RR; reflexivity).
  destruct (charge_fee_inv L g t _ _ _ _ _ TR EF) as (FL & _ & _ & _ & _ & FD).
  assert (LOG : s_log (wind_up s3) = (l0 ++ lg ++ [OBody [] SUBMISSION (get_state (s_ctx se)) (s_drv se)] ++ l) ++ OAct cs (ActSetContract name text (pget (u "owner") kw) now dev) :: []).
  { change (s_log (wind_up s3)) with (s_log s3). rewrite FL, RL, QL. change (s_log (upd_ctx pop_state s2)) with (s_log s2). rewrite R4. unfold s1'. cbn [s_log note set_log]. rewrite GL.
    change (s_log sp) with (s_log sa). rewrite SL, <- !app_assoc. reflexivity. }
  assert (HT : forall o, In o l -> ~ touches L (make_key name CODE_KEY []) o).
  { intros o Ho. apply (HW _ _ _ o LOG); [cbn [touches contract_entries In]; left; reflexivity|]. rewrite app_nil_r. apply in_or_app. right. apply in_or_app. right. right. exact Ho. }
  destruct (R7 HT) as (blob & M & P1 & P2 & P3 & P4 & P5). clear R7 HT.
  assert (BS : dv_bypass (s_drv s2) = false) by (destruct R5 as (_ & _ & ->); unfold s1'; change (s_drv (note (OBody [] SUBMISSION (get_state (s_ctx se)) (s_drv se)) se)) with (s_drv se); rewrite GD; change (s_drv sp) with (s_drv sa); rewrite SD; exact HB).
  split. { unfold reads_as. rewrite get_result. rewrite <- R6. change (name ++ u ".__code__") with (make_key name CODE_KEY []). change (s_drv s1') with (s_drv se). rewrite GD, find_set_reads. change (s_drv sp) with (s_drv sa). rewrite SD, find_set_reads. reflexivity. }
  exists text, blob. split; [exact R1|]. split; [exact M|].
  set (sr := restore _ _ _ s1) in *. assert (DR : s_drv sr = set_txn [] (set_events [] (s_drv s2))).
  { unfold sr. rewrite restore_drv_ok, QD. reflexivity. }
  assert (KEEP : forall k, In k (contract_entries name) -> dget k (dv_writes (s_drv (wind_up s3))) = dget k (dv_writes (s_drv s2)) /\ dv_bypass (s_drv (wind_up s3)) = false).
  { intros k Hk. change (s_drv (wind_up s3)) with (s_drv s3). destruct FD as [(_ & -> & _)|(FM & FP)]; [rewrite DR; split; [reflexivity|exact BS]|].
    destruct FP as [fee bal z reads _ _ _ _ _ FV]. cbv zeta in FV. rewrite HA in FV. rewrite FV. cbn [set_writes set_reads dv_writes dv_bypass]. rewrite DR. split; [|exact BS].
    cbn [set_txn set_events dv_writes]. rewrite dget_dset. destruct (str_eqb_spec k (balance_key g t)) as [->|]; [contradiction (HFee FM Hk)|reflexivity]. }
  assert (EN : rt_env (s_rt s1') = dupdate (rt_env (s_rt s)) (t_env t)).
  { change (s_rt s1') with (s_rt se). rewrite GR. cbn. unfold sp, primed, set_up. destruct (metered g t); exact SE. }
  assert (EC : c_caller (get_state (s_ctx s1')) = Some (t_sender t)) by (rewrite <- HCI; exact E1).
  assert (OW : pends (s_w s2) (make_key name OWNER_KEY []) (pget (u "owner") (t_kwargs t))).
  { destruct P3 as (z & Z1 & Z2). exists z. split; [|exact Z2]. rewrite <- Z1. unfold pget. pose proof (float_args_get _ _ (u "owner") KW) as KO.
    destruct (dget (u "owner") (t_kwargs t)) as [ow|]; [destruct KO as (q & -> & KO & _); symmetry; exact KO|rewrite KO; reflexivity]. }
  assert (FIN : forall m x, In (make_key name m []) (contract_entries name) -> pends (s_w s2) (make_key name m []) x -> holds (wind_up s3) (make_key name m []) x).
  { intros m z Hk Hp. destruct (KEEP _ Hk) as [K1 K2]. exact (holds_pends s2 _ name _ _ Hk K2 Hp K1). }
  unfold as_submitted. rewrite EC in R2. cbn [of_name] in R2. rewrite EN in R3. fold (time_given L t s) in R3. subst dev now.
  split; [|split; [|split; [|split]]].
  - apply (FIN CODE_KEY); [apply entry_keys; cbn [In]; auto|exact P1].
  - apply (FIN COMPILED_KEY); [apply entry_keys; cbn [In]; auto|exact P2].
  - apply (FIN OWNER_KEY); [apply entry_keys; cbn [In]; auto|exact OW].
  - apply (FIN TIME_KEY); [apply entry_keys; cbn [In]; auto 10|exact P4].
  - apply (FIN DEVELOPER_KEY); [apply entry_keys; cbn [In]; auto 10|exact P5].
Qed.

(** ** The exceptions, and an instance *)
Definition noon : pyval := VTime (mkdt 2025 1 15 12 0 0 0).
Definition long_ago : pyval := VTime (mkdt 1999 12 31 0 0 0 0).
Definition owned_submit (who name code owner : string) (env : dict pyval) : txn :=
  mkTx (u who) SUBMISSION (u "submit_contract") [(u "name", VStr (u name)); (u "code", VStr (u code)); (u "owner", VStr (u owner))] env false 1000 20 (Some false).
(** code whose top level has the line  now = datetime.datetime(1999, 12, 31)  *)
Definition dated_mod : modul := mkMod (PRet long_ago) None [].
Definition dated_mods : lang := sub_lang [(u "good", plain_mod "con_a"); (u "dated", dated_mod)].
Definition t_dated : txn := owned_submit "eve" "con_a" "dated" "eve" [(u "now", noon)].
Definition t_good : txn := owned_submit "bob" "con_a" "good" "olga" [(u "now", noon)].
Definition t_timeless : txn := owned_submit "bob" "con_a" "good" "olga" [].
(** Code that assigns the global 'now' chooses the time of its submission *)
Theorem C112_time_refuted : good_outcome dated_mods t_dated (sub_start []) = true /\ time_given dated_mods t_dated (sub_start []) = noon /\
  reads_as (after dated_mods [t_dated] (sub_start [])) (u "con_a.__submitted__") = Ok long_ago.
Proof. split; [vm_compute; reflexivity|]. split; vm_compute; reflexivity. Qed.
(** Two processes, started a day apart, with the same state run the same transaction, which has no 'now': the times they store are those
    when they were started *)
Definition booted (b : pyval) (mods : dict modul) : lang :=
  let D := demo mods in mkLang (l_compile D) (l_marshal D) (l_interp D) (l_host D) (l_sysmod D) (l_stdlib D) (l_name_ok D) (l_islower D) (l_rand D) (l_ostr D) (l_ord D) b (l_fdiv D).
Definition process (b : pyval) : lang := booted b [(u "sub", submission_modul (booted b [])); (u "good", plain_mod "con_a")].
Definition noon2 : pyval := VTime (mkdt 2025 1 16 12 0 0 0).
Theorem C112_import_time_refuted :
  good_outcome (process noon) t_timeless (sub_start []) = true /\ good_outcome (process noon2) t_timeless (sub_start []) = true /\
  reads_as (after (process noon) [t_timeless] (sub_start [])) (u "con_a.__submitted__") = Ok noon /\
  reads_as (after (process noon2) [t_timeless] (sub_start [])) (u "con_a.__submitted__") = Ok noon2.
Proof. split; [vm_compute; reflexivity|]. split; [vm_compute; reflexivity|]. split; vm_compute; reflexivity. Qed.
(** bob submits con_a for olga: what the theorem asks for is so, and this is what is stored *)
Definition touches_code (L : lang) (name : string) (o : obs) : bool :=
  match o with
  | OAct _ (ActVarSet x _) => str_eqb (v_key x) (u name ++ u ".__code__")
  | OAct _ (ActSetContract n _ _ _ _) => str_eqb n (u name)
  | OAct _ (ActHashSet _ _ _) | OAct _ (ActHashClear _ _) | OAct _ (ActSetVar _ _ _) => true
  | _ => false
  end.
Lemma entry_name n c : In (c ++ u ".__code__") (contract_entries n) -> n = c.
Proof.
  assert (H : forall m, ~ In DOT m -> n ++ DOT :: m = c ++ DOT :: u "__code__" -> n = c).
  { intros m Hm E. apply last_dot in E; [apply E|exact Hm|vm_compute; intuition discriminate]. }
  cbn [contract_entries In]. intros [E|[E|[E|[E|[E|[]]]]]].
  - apply (H (u "__code__")); [vm_compute; intuition discriminate|exact E].
  - apply (H (u "__compiled__")); [vm_compute; intuition discriminate|exact E].
  - apply (H (u "__owner__")); [vm_compute; intuition discriminate|exact E].
  - apply (H (u "__submitted__")); [vm_compute; intuition discriminate|exact E].
  - apply (H (u "__developer__")); [vm_compute; intuition discriminate|exact E].
Qed.
Lemma touches_code_ok L name o : touches L (u name ++ u ".__code__") o -> touches_code L name o = true.
Proof.
  destruct o as [|cs a| | |]; try contradiction. destruct a; try contradiction; cbn [touches touches_code]; try reflexivity.
  - intros ->. apply str_eqb_refl.
  - intros H. apply entry_name in H. subst. apply str_eqb_refl.
Qed.
Lemma written_once_ok L name l : (List.length (filter (touches_code L name) l) <= 1)%nat -> written_once L (u name ++ u ".__code__") l.
Proof.
  intros H l1 o l2 o' -> Ho Hi Ho'. apply touches_code_ok in Ho, Ho'. rewrite filter_app, app_length in H. cbn [filter] in H. rewrite Ho in H. cbn [List.length] in H.
  assert (Hp : forall l, In o' l -> (1 <= List.length (filter (touches_code L name) l))%nat).
  { intros l Hl. assert (HF : In o' (filter (touches_code L name) l)) by (apply filter_In; auto). destruct (filter (touches_code L name) l); [destruct HF|cbn; lia]. }
  apply in_app_or in Hi as [Hi|Hi]; apply Hp in Hi; lia.
Qed.
Example C112_example : set_order (l_ord dated_mods) /\ s_mods (sub_start []) = [] /\ l_host dated_mods SUBMISSION = None /\ submission_stored dated_mods (sub_start []) /\
  dv_bypass (s_drv (sub_start [])) = false /\ leaves_now dated_mods (u "con_a") (u "good") /\ metered cfg0 t_good = false /\
  good_outcome dated_mods t_good (sub_start []) = true /\ written_once dated_mods (u "con_a.__code__") (s_log (after dated_mods [t_good] (sub_start []))) /\
  time_given dated_mods t_good (sub_start []) = noon /\
  reads_as (after dated_mods [t_good] (sub_start [])) (u "con_a.__code__") = Ok (VStr (u "good")) /\
  reads_as (after dated_mods [t_good] (sub_start [])) (u "con_a.__owner__") = Ok (VStr (u "olga")) /\
  reads_as (after dated_mods [t_good] (sub_start [])) (u "con_a.__developer__") = Ok (VStr (u "bob")) /\
  reads_as (after dated_mods [t_good] (sub_start [])) (u "con_a.__submitted__") = Ok noon /\
  ~ leaves_now dated_mods (u "con_a") (u "dated").
Proof.
  split; [intros l k; reflexivity|]. split; [reflexivity|]. split; [vm_compute; reflexivity|]. split; [vm_compute; reflexivity|]. split; [reflexivity|].
  split. { intros text blob md E1 E2 E3. assert (X1 : u "good" = text) by (injection E1; auto). subst text. assert (X2 : u "good" = blob) by (injection E2; auto). subst blob. assert (E : l_interp dated_mods (u "good") = Ok (plain_mod "con_a")) by (vm_compute; reflexivity).
    pose proof (eq_trans (eq_sym E) E3) as X. injection X as <-. reflexivity. }
  split; [reflexivity|]. split; [vm_compute; reflexivity|].
  split. { apply (written_once_ok dated_mods "con_a"). apply Nat.leb_le. vm_compute. reflexivity. }
  split; [vm_compute; reflexivity|]. split; [vm_compute; reflexivity|]. split; [vm_compute; reflexivity|]. split; [vm_compute; reflexivity|]. split; [vm_compute; reflexivity|].
  intros H. specialize (H _ _ dated_mod eq_refl eq_refl eq_refl). discriminate H.
Qed.

(** ** The client's submit *)
(** What the client sends: the name, the text, the owner and all constructor arguments, under their names, as they were given and nothing else; the signer is the given one or the client's. *)
Theorem C112_client_arguments L fuel clock code n metering owner args signer c : exists kw d,
  client_submit L fuel true clock code (Some n) metering owner args signer c =
    (call_contract L fuel clock (match signer with Some s => s | None => k_signer c end) SUBMISSION (u "submit_contract") kw None metering None;; ret VNone) c /\
  map fst kw = [u "name"; u "code"; u "owner"; u "constructor_args"] /\
  dget (u "name") kw = Some (VStr n) /\ dget (u "code") kw = Some (VStr code) /\ dget (u "owner") kw = Some owner /\ dget (u "constructor_args") kw = Some (VDict d) /\
  List.length d = List.length args /\ forall i k v, nth_error args i = Some (k, v) -> nth_error d i = Some (KStr k, v).
Proof.
  exists [(u "name", VStr n); (u "code", VStr code); (u "owner", owner); (u "constructor_args", args_value args)], (map (fun kv => (KStr (fst kv), snd kv)) args).
  split; [reflexivity|]. split; [reflexivity|]. split; [reflexivity|]. split; [reflexivity|]. split; [reflexivity|]. split; [reflexivity|]. split; [apply map_length|].
  intros i k v H. rewrite nth_error_map, H. reflexivity.
Qed.
(** The time of the client's call: its environment's 'now', or the clock when it has none (see C77: the environment keeps the first one) *)
Definition time_of_call (clock : pyval) (c : client) : pyval := if is_none (pget NOW (k_env c)) then clock else pget NOW (k_env c).
Lemma pget_update k (d e : dict pyval) : NoDup (dkeys e) -> dget k e <> None -> pget k (dupdate d e) = pget k e.
Proof. intros HN H. unfold pget. rewrite dget_dupdate by exact HN. destruct (dget k e); [reflexivity|contradiction]. Qed.
(** Full statement: client.submit(code, name, owner=...) that returns leaves the compiled code under that name, with the owner given, the signer (the client's
    when none is given) as developer, and the time of the call.  Proved under the conditions of C112_transaction_partial. *)
Theorem C112_client_partial L fuel present clock code n metering owner args signer c v c' :
  let who := match signer with Some s => s | None => k_signer c end in
  let s := k_mach c in
  let t := mkTx who SUBMISSION (u "submit_contract") [(u "name", VStr n); (u "code", VStr code); (u "owner", owner); (u "constructor_args", args_value args)]
             (k_env c) false DEFAULT_STAMPS STAMPS_PER_TAU metering in
  set_order (l_ord L) -> s_mods s = [] -> l_host L SUBMISSION = None -> submission_stored L s -> dv_bypass (s_drv s) = false ->
  (metered (k_cfg c) t = true -> ~ In (balance_key (k_cfg c) t) (contract_entries n)) -> leaves_now L n code -> NoDup (dkeys (k_env c)) -> clock <> VNone ->
  client_submit L fuel present clock code (Some n) metering owner args signer c = (Ok v, c') -> written_once L (n ++ u ".__code__") (s_log (k_mach c')) ->
  present = true /\ reads_as s (n ++ u ".__code__") = Ok VNone /\
  exists text blob, l_compile L n code = Ok text /\ l_marshal L text = Ok blob /\
    holds (k_mach c') (n ++ u ".__code__") (VStr text) /\ holds (k_mach c') (n ++ u ".__compiled__") (VBytes blob) /\
    holds (k_mach c') (n ++ u ".__owner__") owner /\ holds (k_mach c') (n ++ u ".__submitted__") (time_of_call clock c) /\
    holds (k_mach c') (n ++ u ".__developer__") (VStr who).
Proof.
  intros who s t Ord HM HH HS HB HFee HNow ND HCl. unfold client_submit. destruct present; [cbn [negb]|discriminate]. rewrite bind_eq. cbn [gets]. fold who. rewrite bind_eq. unfold call_contract.
  rewrite bind_eq. cbn [gets]. set (e := if is_none (pget NOW (k_env c)) then _ else _). rewrite bind_eq. cbn [modify]. rewrite bind_eq. unfold on_m.
  set (t' := mkTx _ _ _ _ e _ _ _ _). change (k_mach (set_kenv e c)) with s. change (k_cfg (set_kenv e c)) with (k_cfg c).
  destruct (execute L fuel (k_cfg c) t' s) as [[o|x] s'] eqn:EX; [|discriminate].
  destruct (Z.eqb_spec (o_status o) 1) as [HO|HO]. { destruct (o_result o); discriminate. }
  unfold lift. destruct (o_result o) as [r|x]; [|discriminate]. intros HR HW. injection HR as <- <-. split; [reflexivity|].
  change (k_mach (set_kmach s' (set_kenv e c))) with s' in *.
  assert (H0 : o_status o = 0%Z).
  { pose proof EX as EY. apply execute_inv in EY as (_ & rr & s1 & w & s3 & _ & _ & _ & ES & EO). rewrite EO in HO |- *. cbn [o_status] in *. destruct rr; [reflexivity|contradiction HO; reflexivity]. }
  destruct (C112_transaction_partial L fuel (k_cfg c) t' s o s' n code Ord HM HH HS HB eq_refl eq_refl eq_refl eq_refl eq_refl HFee HNow EX H0 HW) as (R0 & text & blob & K1 & K2 & K3 & K4 & K5 & K6 & K7).
  split; [exact R0|]. exists text, blob. split; [exact K1|]. split; [exact K2|]. split; [exact K3|]. split; [exact K4|]. split; [exact K5|]. split; [|exact K7].
  assert (HT : time_given L t' s = time_of_call clock c).
  { unfold time_given, time_of_call. cbv zeta. change (t_env t') with e. change (u "now") with NOW.
    assert (HE : NoDup (dkeys e) /\ dget NOW e = Some (if is_none (pget NOW (k_env c)) then clock else pget NOW (k_env c))).
    { unfold e. destruct (is_none (pget NOW (k_env c))) eqn:EN.
      - split; [apply NoDup_dset, ND|]. rewrite dget_dset, str_eqb_refl. reflexivity.
      - split; [exact ND|]. unfold pget in *. destruct (dget NOW (k_env c)); [reflexivity|discriminate EN]. }
    destruct HE as [HE1 HE2]. rewrite pget_update; [|exact HE1|rewrite HE2; discriminate]. unfold pget at 1 2. rewrite HE2.
    destruct (is_none (pget NOW (k_env c))) eqn:EN; [|rewrite EN; reflexivity]. destruct clock; [contradiction|reflexivity..]. }
  rewrite <- HT. exact K6.
Qed.
Definition bobs : client := mkClient (sub_start []) cfg0 [] (u "bob").
Example C112_client_example : dv_bypass (s_drv (k_mach bobs)) = false /\ NoDup (dkeys (k_env bobs)) /\ noon <> VNone /\
  fst (client_submit dated_mods 10 true noon (u "good") (Some (u "con_a")) (Some false) (VStr (u "olga")) [] None bobs) = Ok VNone /\
  written_once dated_mods (u "con_a.__code__") (s_log (k_mach (snd (client_submit dated_mods 10 true noon (u "good") (Some (u "con_a")) (Some false) (VStr (u "olga")) [] None bobs)))) /\
  reads_as (k_mach (snd (client_submit dated_mods 10 true noon (u "good") (Some (u "con_a")) (Some false) (VStr (u "olga")) [] None bobs))) (u "con_a.__developer__") = Ok (VStr (u "bob")).
Proof.
  split; [reflexivity|]. split; [constructor|]. split; [discriminate|]. split; [vm_compute; reflexivity|].
  split; [apply (written_once_ok dated_mods "con_a"); apply Nat.leb_le; vm_compute; reflexivity|]. vm_compute. reflexivity.
Qed.
Print Assumptions C112_transaction_partial.
Print Assumptions C112_client_partial.
Print Assumptions C112_time_refuted.
Print Assumptions C112_import_time_refuted.
