(** * Relations between the machine before and after contract code *)
From Verif Require Import Model.Base Model.State Model.Dec Model.Time Model.Value Model.Encoder Model.Hdf5 Model.Runtime Model.Driver Model.Orm Model.Exec Model.Executor.
From Verif Require Import Spec.OrmSpec Spec.ExecSpec Proofs.BaseFacts Proofs.DriverFacts Proofs.OrmFacts Proofs.ExecFacts.

(** ** One action *)
Definition act_sets (L : lang) (PS : pystr -> bool -> Prop) (a : action) : Prop :=
  match a with
  | ActVarSet x _ => PS (v_key x) true
  | ActHashSet h k _ => forall s, validate_key (l_ostr L) k = Ok s -> PS (entry_key h s) true
  | ActHashClear h args => forall k, PS k false
  | ActSetVar c n _ => PS (make_key c n []) false
  | ActSetContract c _ _ _ _ => forall n, In n [CODE_KEY; COMPILED_KEY; OWNER_KEY; TIME_KEY; DEVELOPER_KEY] -> PS (make_key c n []) false
  | _ => True
  end.
Definition is_emit (a : action) : Prop := match a with ActEmit _ _ _ => True | _ => False end.
Definition is_random (a : action) : Prop := match a with ActSeed _ | ActRandom _ => True | _ => False end.
Section ActRel.
  Variables (L : lang) (PS : pystr -> bool -> Prop) (PE PG : Prop) (W : world -> bool -> world -> Prop).
  Hypothesis W_refl : forall w b, W w b w.
  Hypothesis W_trans : forall w b w1 w2, W w true w1 -> W w1 b w2 -> W w b w2.
  Hypothesis W_reads : forall w x b, grown (w_drv w) x -> W w b (upd_reads x w).
  Hypothesis W_set : forall k v b w, PS k b -> W w (is_ok (fst (set k v b w))) (snd (set k v b w)).
  Hypothesis W_deduct : forall kl vl w, W w (is_ok (fst (deduct_write kl vl (w_rt w)))) (snd (on_rt (deduct_write kl vl) w)).
  Hypothesis W_event : PE -> forall e w, W w true (snd (on_drv (set_event e) w)).
  Hypothesis W_seed : PG -> forall x w b, W w b (upd_rt (set_seeded x) w).
  Definition wt {A} (m : st world A) : Prop := forall w, W w (is_ok (fst (m w))) (snd (m w)).
  Lemma wt_ret A (a : A) : wt (ret a). Proof using W_refl. intros w; apply W_refl. Qed.
  Lemma wt_lift A (r : result A) : wt (lift r). Proof using W_refl. intros w; apply W_refl. Qed.
  Lemma wt_raise A e : wt (raise e : st world A). Proof using W_refl. intros w; apply W_refl. Qed.
  Lemma wt_gets A (f : world -> A) : wt (gets f). Proof using W_refl. intros w; apply W_refl. Qed.
  Lemma wt_bind A B (m : st world A) (k : A -> st world B) : wt m -> (forall a, wt (k a)) -> wt (bind m k).
  Proof using W_trans.
    intros Hm Hk w. unfold bind. specialize (Hm w). destruct (m w) as [[a|e] w1]; cbn [fst snd is_ok] in *; [|exact Hm].
    eapply W_trans; [exact Hm | apply Hk].
  Qed.
  Lemma wt_foreach A (f : A -> st world unit) l : (forall a, wt (f a)) -> wt (foreach f l).
  Proof using W_refl W_trans. intros H. induction l; cbn [foreach]; [apply wt_ret | apply wt_bind; auto]. Qed.
  Lemma wt_drv A (m : st driver A) : reads_only m -> reads_grow m -> wt (on_drv m).
  Proof using W_reads. intros H HG w. unfold on_drv. destruct (H (w_drv w)) as (x & Hx). specialize (HG (w_drv w)). destruct (m (w_drv w)) as [r v]. cbn [fst snd] in *. subst. apply (W_reads w x _ HG). Qed.
  Lemma wt_set k v b : PS k b -> wt (set k v b). Proof using W_set. intros H w; apply W_set; exact H. Qed.
  Lemma wt_deduct kl vl : wt (on_rt (deduct_write kl vl)).
  Proof using W_deduct. intros w. specialize (W_deduct kl vl w). unfold on_rt in *. destruct (deduct_write kl vl (w_rt w)). exact W_deduct. Qed.
  Lemma ro_values ord p : reads_only (values ord p).
  Proof. unfold values. apply ro_bind; [apply ro_items|]. intros _. apply ro_bind; [apply ro_items|]. intros i. apply ro_ret. Qed.
  Lemma rg_values ord p : reads_grow (values ord p).
  Proof. unfold values. apply rg_bind; [apply ro_items|apply rg_items|]. intros _. apply rg_bind; [apply ro_items|apply rg_items|]. intros i. apply rg_ret. Qed.
  Lemma wt_check b : wt (check b). Proof using W_refl. apply wt_lift. Qed.
  Lemma wt_pay params kv : wt (pay_arg params kv).
  Proof using W_refl W_trans W_deduct.
    unfold pay_arg. apply wt_bind; [apply wt_lift|]. intros p. apply wt_bind; [apply wt_lift|]. intros b.
    apply wt_bind; [apply wt_check|]. intros _. apply wt_bind; [apply wt_lift|]. intros [kl vl]. apply wt_deduct.
  Qed.
  Lemma do_act_gen a : act_sets L PS a -> (is_emit a -> PE) -> (is_random a -> PG) -> wt (do_act L a).
  Proof using All.
    destruct a as [x|x v|h k|h k v|h l|h l|e p d|salt|d|c n|c n v|nm code o now dev]; cbn [act_sets do_act is_emit is_random]; intros HP HE HG.
    - apply wt_bind; [apply wt_drv; [apply ro_get|apply rg_get] | intros; apply wt_ret].
    - apply wt_bind; [|intros; apply wt_ret]. unfold var_set. apply wt_bind; [|intros; apply wt_set; exact HP].
      destruct (v_type x); [|apply wt_ret]. destruct (is_none v); [apply wt_ret|]. apply wt_bind; [apply wt_lift | intros; apply wt_check].
    - unfold hash_get. apply wt_bind; [apply wt_lift|]. intros s. apply wt_bind; [apply wt_drv; [apply ro_get|apply rg_get]|]. intros y.
      destruct (if is_none y then h_default h else y); try apply wt_ret; (apply wt_bind; [apply wt_lift | intros; apply wt_ret]).
    - apply wt_bind; [|intros; apply wt_ret]. unfold hash_set. intros w. rewrite bind_eq. cbn [lift].
      destruct (validate_key (l_ostr L) k) as [s|e] eqn:E; [|apply W_refl]. apply wt_set, HP; reflexivity.
    - apply wt_bind; [|intros; apply wt_ret]. unfold hash_all. apply wt_bind; [apply wt_lift|]. intros p. apply wt_drv; [apply ro_values|apply rg_values].
    - apply wt_bind; [|intros; apply wt_ret]. unfold hash_clear, hash_items. apply wt_bind.
      + apply wt_bind; [apply wt_lift|]. intros p. apply wt_drv; [apply ro_items|apply rg_items].
      + intros i. apply wt_foreach. intros k. apply wt_set, HP.
    - apply wt_bind.
      + unfold log_decl. apply wt_bind; [apply wt_gets|]. intros sg. apply wt_bind; [apply wt_check|]. intros _. apply wt_bind; [apply wt_check|]. intros _.
        apply wt_bind; [|intros; apply wt_ret]. apply wt_foreach. intros q. destruct (p_types (snd q)); [apply wt_check | apply wt_raise].
      + intros ev. apply wt_bind; [|intros; apply wt_ret]. unfold log_emit. apply wt_bind; [apply wt_gets|]. intros cs.
        apply wt_bind; [apply wt_check|]. intros _. apply wt_bind; [apply wt_foreach; intros; apply wt_check|]. intros _.
        apply wt_bind; [apply wt_foreach; intros; apply wt_lift|]. intros _. apply wt_bind; [apply wt_lift|]. intros ix. apply wt_bind; [apply wt_lift|]. intros dt.
        apply wt_bind; [apply wt_foreach; intros; apply wt_pay|]. intros _. apply wt_bind; [apply wt_foreach; intros; apply wt_pay|]. intros _.
        intros w. apply W_event, HE, I.
    - unfold do_seed. apply wt_bind; [apply wt_gets|]. intros r. apply wt_bind; [apply wt_lift|]. intros s. apply wt_bind; [intros w; apply W_seed, HG, I | intros; apply wt_ret].
    - unfold do_random. apply wt_bind; [apply wt_gets|]. intros r. destruct (rt_seeded r) as [[s ds]|]; [|apply wt_raise].
      apply wt_bind; [intros w; apply W_seed, HG, I | intros; apply wt_lift].
    - apply wt_drv; [apply ro_get|apply rg_get].
    - apply wt_bind; [apply wt_set; exact HP | intros; apply wt_ret].
    - apply wt_bind; [|intros; apply wt_ret]. unfold set_contract. apply wt_bind; [apply wt_drv; [apply ro_get|apply rg_get]|]. intros x. destruct (is_none x); [|apply wt_ret].
      apply wt_bind; [apply wt_lift|]. intros blob. unfold set_var. repeat (apply wt_bind; [apply wt_set; apply HP; cbn [In]; auto 10|]; intros _). apply wt_set; apply HP; cbn [In]; auto 10.
  Qed.
End ActRel.
Lemma do_act_rel (L : lang) (PS : pystr -> bool -> Prop) (PE : Prop) (W : world -> bool -> world -> Prop) :
  (forall w b, W w b w) -> (forall w b w1 w2, W w true w1 -> W w1 b w2 -> W w b w2) -> (forall w x b, W w b (upd_reads x w)) ->
  (forall k v b w, PS k b -> W w (is_ok (fst (set k v b w))) (snd (set k v b w))) ->
  (forall kl vl w, W w (is_ok (fst (deduct_write kl vl (w_rt w)))) (snd (on_rt (deduct_write kl vl) w))) ->
  (PE -> forall e w, W w true (snd (on_drv (set_event e) w))) -> (forall x w b, W w b (upd_rt (set_seeded x) w)) ->
  forall a, act_sets L PS a -> (is_emit a -> PE) -> wt W (do_act L a).
Proof. intros H1 H2 H3 H4 H5 H6 H7 a HA HE. apply (do_act_gen L PS PE True W H1 H2 (fun w x b _ => H3 w x b) H4 H5 H6 (fun _ => H7) a HA HE (fun _ => I)). Qed.

(** ** Steps that touch neither stored values nor metering *)
Definition no_act (o : obs) : Prop := match o with OAct _ _ | OLine _ => False | _ => True end.
Record glue (s s' : mach) : Prop := mkGlue {
  gl_drv : exists x, s_drv s' = set_reads x (s_drv s);
  gl_rt : exists c l, s_rt s' = set_loaded l (set_ctx c (s_rt s));
  gl_res : s_restricted s' = s_restricted s;
  gl_log : exists l, s_log s' = s_log s ++ l /\ Forall no_act l;
  gl_grown : grown (s_drv s) (dv_reads (s_drv s')) }.
Lemma rt_same r : r = set_loaded (rt_loaded r) (set_ctx (rt_ctx r) r).
Proof. destruct r; reflexivity. Qed.
Lemma glue_refl s : glue s s.
Proof.
  constructor; [exists (dv_reads (s_drv s)); symmetry; apply set_reads_same | exists (rt_ctx (s_rt s)), (rt_loaded (s_rt s)); destruct (s_rt s); reflexivity | reflexivity
    | exists []; rewrite app_nil_r; split; [reflexivity | constructor] | apply grown_refl].
Qed.
Lemma glue_trans a b c : glue a b -> glue b c -> glue a c.
Proof.
  intros [[x Hx] [c1 [l1 H1]] Hr [lg [Hl Fl]] G1] [[x' Hx'] [c2 [l2 H2]] Hr' [lg' [Hl' Fl']] G2]. constructor.
  - exists x'. rewrite Hx', Hx. destruct (s_drv a); reflexivity.
  - exists c2, l2. rewrite H2, H1. destruct (s_rt a); reflexivity.
  - congruence.
  - exists (lg ++ lg'). rewrite Hl', Hl, app_assoc. split; [reflexivity | apply Forall_app; auto].
  - rewrite Hx in G1, G2. rewrite Hx' in *. eapply grown_trans; [exact G1|]. rewrite Hx in G2. exact G2.
Qed.
Lemma glue_ctx f s : glue s (upd_ctx f s).
Proof.
  constructor.
  - exists (dv_reads (s_drv s)). cbn. symmetry. apply set_reads_same.
  - exists (f (rt_ctx (s_rt s))), (rt_loaded (s_rt s)). cbn. unfold s_rt. destruct (w_rt (s_w s)); reflexivity.
  - reflexivity.
  - exists []. cbn. rewrite app_nil_r. split; [reflexivity | constructor].
  - apply grown_refl.
Qed.
Lemma glue_note o s : no_act o -> glue s (note o s).
Proof.
  intros H. constructor; [exists (dv_reads (s_drv s)); symmetry; apply set_reads_same | exists (rt_ctx (s_rt s)), (rt_loaded (s_rt s)); exact (rt_same (s_rt s))
    | reflexivity | exists [o]; split; [reflexivity | repeat constructor; exact H] | apply grown_refl].
Qed.
Lemma glue_mods d s : glue s (set_mods d s).
Proof. destruct (glue_refl s) as [A B C D F]. constructor; assumption. Qed.
Lemma glue_hosts d s : glue s (set_hosts d s).
Proof. destruct (glue_refl s) as [A B C D F]. constructor; assumption. Qed.
Lemma glue_loaded l s : glue s (set_w (upd_rt (fun r => set_loaded (l r) r) (s_w s)) s).
Proof.
  destruct (glue_refl s) as [A B C D F]. constructor; try assumption.
  exists (rt_ctx (s_rt s)), (l (s_rt s)). cbn. unfold s_rt. destruct (w_rt (s_w s)); reflexivity.
Qed.
Lemma glue_read {A} (m : st driver A) s : reads_only m -> reads_grow m -> glue s (snd (on_w (on_drv m) s)).
Proof.
  intros H HG. specialize (HG (w_drv (s_w s))). unfold on_w, on_drv. destruct (H (w_drv (s_w s))) as (x & Hx). destruct (m (w_drv (s_w s))) as [r v]. cbn [fst snd] in *. subst v.
  constructor; [exists x; reflexivity | exists (rt_ctx (s_rt s)), (rt_loaded (s_rt s)); exact (rt_same (s_rt s))
    | reflexivity | exists []; cbn; rewrite app_nil_r; split; [reflexivity | constructor] | exact HG].
Qed.
Lemma on_w_mods {A} (m : st world A) s : s_mods (snd (on_w m s)) = s_mods s.
Proof. unfold on_w. destruct (m (s_w s)). reflexivity. Qed.
Lemma on_w_hosts {A} (m : st world A) s : s_hosts (snd (on_w m s)) = s_hosts s.
Proof. unfold on_w. destruct (m (s_w s)). reflexivity. Qed.
Lemma act_mods L a s : s_mods (snd (act L a s)) = s_mods s.
Proof. unfold act. pose proof (on_w_mods (do_act L a) s) as H. destruct (on_w (do_act L a) s) as [[v|e] s']; exact H. Qed.
Lemma line_mods e s : s_mods (snd (line e s)) = s_mods s.
Proof. unfold line. rewrite on_w_mods. reflexivity. Qed.
Lemma lines_mods ls : forall s, s_mods (snd (foreach line ls s)) = s_mods s.
Proof.
  induction ls as [|e ls IH]; intros s; [reflexivity|]. cbn [foreach]. unfold bind. pose proof (line_mods e s) as H.
  destruct (line e s) as [[v|x] s1]; cbn [snd] in *; [rewrite IH|]; exact H.
Qed.
Lemma guard_mods ls s : s_mods (snd (guard ls s)) = s_mods s.
Proof. unfold guard. pose proof (lines_mods ls s) as H. destruct (foreach line ls s) as [[v|e] s1]; exact H. Qed.
Lemma ro_owner n : reads_only (get_owner n).
Proof. unfold get_owner. apply ro_bind; [apply ro_get|]. intros o. apply ro_ret. Qed.
Lemma rg_owner n : reads_grow (get_owner n).
Proof. unfold get_owner. apply rg_bind; [apply ro_get|apply rg_get|]. intros o. apply rg_ret. Qed.
(** entering an exported function *)
Lemma enter_glue c s : glue s (snd (enter c s)) /\ s_mods (snd (enter c s)) = s_mods s.
Proof.
  unfold enter. rewrite bind_eq. cbn [gets]. destruct (context_changed (s_ctx s) c).
  - rewrite bind_eq. pose proof (glue_read (get_owner c) s (ro_owner c) (rg_owner c)) as H. pose proof (on_w_mods (on_drv (get_owner c)) s) as HM.
    destruct (on_w (on_drv (get_owner c)) s) as [[o|e] s1]; cbn [snd] in *; [|split; [exact H | exact HM]].
    rewrite bind_eq. cbn [gets]. rewrite bind_eq. cbn [modify].
    destruct (is_none o || is_owner o (c_this (get_state (s_ctx s1))))%bool; cbn [ret raise snd]; (split; [eapply glue_trans; [exact H | apply glue_ctx] | exact HM]).
  - cbn [modify snd]. split; [apply glue_ctx | reflexivity].
Qed.

Section RunRel.
  Variables (L : lang) (Q : prog -> Prop) (QM : modul -> Prop) (Rel : mach -> bool -> mach -> Prop).
  Hypothesis QM_interp : forall b md, l_interp L b = Ok md -> QM md.
  Hypothesis QM_host : forall n md, l_host L n = Some md -> QM md.
  Hypothesis QM_init : forall md, QM md -> each Q (m_init md).
  Hypothesis QM_ctor : forall md f a, QM md -> m_ctor md = Some f -> each Q (f a).
  Hypothesis QM_func : forall md n f a, QM md -> dget n (m_funcs md) = Some f -> each Q (f_body f a).
  Hypothesis R_refl : forall s b, Rel s b s.
  Hypothesis R_trans : forall s b s1 s2, Rel s true s1 -> Rel s1 b s2 -> Rel s b s2.
  Hypothesis R_glue : forall s s1 b, glue s s1 -> Rel s b s1.
  Hypothesis R_glue_after : forall s b s1 s2, Rel s b s1 -> glue s1 s2 -> Rel s b s2.
  Hypothesis R_act : forall a k s, Q (PAct a k) -> Rel s (is_ok (fst (act L a s))) (snd (act L a s)).
  Hypothesis R_line : forall e k s, Q (PLine e k) -> Rel s (is_ok (fst (line e s))) (snd (line e s)).
  Hypothesis R_guard : forall ls ok k s, Q (PGuard ls ok k) -> Rel s true (snd (guard ls s)).
  Definition rel_t (A : Type) (ch : list pystr) (m : st mach A) : Prop :=
    forall s, mods_all QM (s_mods s) -> Rel s (is_ok (fst (m s))) (snd (m s)) /\ mods_all QM (s_mods (snd (m s))).
  Lemma rt_bind A B ch (m : st mach A) (k : A -> st mach B) : rel_t A ch m -> (forall a, rel_t B ch (k a)) -> rel_t B ch (bind m k).
  Proof using R_trans.
    intros Hm Hk s Hs. unfold bind. specialize (Hm s Hs). destruct (m s) as [[a|e] s1]; cbn [fst snd is_ok] in *; [|exact Hm].
    destruct Hm as [H1 M1]. destruct (Hk a s1 M1) as [H2 M2]. split; [eapply R_trans; eauto | exact M2].
  Qed.
  Lemma rt_glue A ch (m : st mach A) : (forall s, glue s (snd (m s)) /\ s_mods (snd (m s)) = s_mods s) -> rel_t A ch m.
  Proof using R_glue. intros H s Hs. destruct (H s) as [G M]. split; [apply R_glue; exact G | rewrite M; exact Hs]. Qed.
  Lemma rt_export ch c (m : st mach pyval) : rel_t pyval (c :: ch) m -> rel_t pyval ch (with_export ch c m).
  Proof using R_glue R_glue_after R_trans.
    intros Hm s Hs. unfold with_export. destruct (enter_glue c s) as [G M]. destruct (enter c s) as [[[]|e] s1]; cbn [fst snd is_ok] in *.
    - set (s2 := note _ s1). assert (Hs2 : mods_all QM (s_mods s2)) by (unfold s2; cbn; rewrite M; exact Hs).
      specialize (Hm s2 Hs2). assert (G2 : glue s s2) by (eapply glue_trans; [exact G | apply glue_note; exact I]).
      destruct (m s2) as [r s3]. cbn [fst snd] in *. destruct Hm as [H3 M3]. split; [|exact M3].
      eapply R_trans; [apply R_glue; exact G2 |]. eapply R_glue_after; [exact H3 | apply glue_ctx].
    - split; [apply R_glue; exact G | rewrite M; exact Hs].
  Qed.
  Lemma fetch_ok n s : glue s (snd (fetch L n s)) /\ s_mods (snd (fetch L n s)) = s_mods s /\ forall md, fst (fetch L n s) = Ok md -> QM md.
  Proof using QM_interp.
    unfold fetch. rewrite bind_eq. pose proof (glue_read (get_compiled n) s (ro_get _) (rg_get _)) as H. pose proof (on_w_mods (on_drv (get_compiled n)) s) as HM.
    destruct (on_w (on_drv (get_compiled n)) s) as [[x|e] s1]; cbn [fst snd] in *; [|split; [exact H | split; [exact HM | discriminate]]].
    rewrite bind_eq. cbn [lift].
    destruct (match x with VNone => Err EImport | VBytes b => Ok b | VStr s0 => fromhex s0 | _ => Err EType end) as [b|e]; cbn [fst snd]; [|split; [exact H | split; [exact HM | discriminate]]].
    split; [exact H | split; [exact HM |]]. intros md Hmd. eapply QM_interp; exact Hmd.
  Qed.
  Lemma rt_load fuel ch n : (forall md, QM md -> rel_t pyval (n :: ch) (deeper L fuel (n :: ch) (m_init md))) -> rel_t unit ch (load L (deeper L fuel) ch n).
  Proof using QM_interp R_glue R_glue_after R_trans.
    intros HI s Hs. unfold load. set (s0 := set_mods (dset n None (s_mods s)) s).
    assert (H0 : mods_all QM (s_mods s0)). { intros m md. unfold s0. cbn. rewrite dget_dset. destruct (str_eqb m n); [discriminate | apply Hs]. }
    assert (HF : forall r s1, (let! md := fetch L n in deeper L fuel (n :: ch) (m_init md);; ret md) s0 = (r, s1) ->
                 Rel s (is_ok r) s1 /\ mods_all QM (s_mods s1) /\ forall md, r = Ok md -> QM md).
    { intros r s1. rewrite bind_eq. destruct (fetch_ok n s0) as (G & M & HQ). destruct (fetch L n s0) as [[md|e] s2]; cbn [fst snd] in *.
      - specialize (HQ md eq_refl). assert (H2 : mods_all QM (s_mods s2)) by (rewrite M; exact H0).
        assert (G2 : glue s s2) by (exact (glue_trans _ _ _ (glue_mods (dset n None (s_mods s)) s) G)).
        rewrite bind_eq. destruct (HI md HQ s2 H2) as [H3 M3].
        destruct (deeper L fuel (n :: ch) (m_init md) s2) as [[v|e] s3]; cbn [fst snd is_ok] in *; intros E; injection E as <- <-; cbn [is_ok]; (split; [|split]).
        + eapply R_trans; [apply R_glue, G2 | exact H3]. + exact M3. + intros md' E. injection E as <-. exact HQ.
        + eapply R_trans; [apply R_glue, G2 | exact H3]. + exact M3. + discriminate.
      - intros E; injection E as <- <-. split; [|split]; [apply R_glue; exact (glue_trans _ _ _ (glue_mods (dset n None (s_mods s)) s) G) | rewrite M; exact H0 | discriminate]. }
    destruct ((let! md := fetch L n in deeper L fuel (n :: ch) (m_init md);; ret md) s0) as [[md|e] s1]; cbn [fst snd is_ok]; destruct (HF _ _ eq_refl) as (A & B & C); cbn [is_ok] in A.
    - split.
      + eapply R_glue_after; [exact A |]. eapply glue_trans; [apply (glue_mods (dset n (Some md) (s_mods s1)) s1) |]. exact (glue_loaded (fun r => rt_loaded r ++ [n]) (set_mods (dset n (Some md) (s_mods s1)) s1)).
      + intros m md'. cbn. rewrite dget_dset. destruct (str_eqb m n); [intros E; injection E as <-; apply C; reflexivity | apply B].
    - split; [eapply R_glue_after; [exact A | apply glue_mods] |]. intros m md'. cbn. rewrite dget_ddel. destruct (str_eqb m n); [discriminate | apply B].
  Qed.
  Lemma rt_view A B ch (f : view -> B) (k : B -> st mach A) :
    (forall v, mods_all QM (vw_mods v) -> rel_t A ch (k (f v))) -> rel_t A ch (bind (gets (fun s => f (view_of s))) k).
  Proof. intros H s Hs. exact (H (view_of s) Hs s Hs). Qed.
  (* Applying the induction principle of ExecFacts *)
  Ltac feed thm := eapply thm with (L := L) (Q := Q) (QM := QM) (T := fun _ => rel_t);
    [ exact QM_interp | intros x0 md0 n0 f0 a0 c0 k0 _ Hh; apply QM_func; exact (QM_host _ _ Hh) | exact QM_init | intros md0 f0 a0 _; apply QM_ctor | intros md0 n0 f0 a0 c0 k0 _; apply QM_func
    | intros lv A0 ch0 m0 H0; exact H0
    | intros lv A0 ch0 a0; intros s Hs; split; [apply R_refl | exact Hs]
    | intros lv A0 ch0 e0; intros s Hs; split; [apply R_refl | exact Hs]
    | intros lv; exact rt_bind
    | intros lv; exact rt_view
    | intros lv ch0 k0; apply rt_glue; intros s0; split; [apply glue_read; [apply ro_get|apply rg_get] | apply on_w_mods]
    | intros lv ch0 kd0 n0; apply rt_glue; intros s0; split; [apply glue_note; exact I | reflexivity]
    | intros lv ch0 n0; apply rt_glue; intros s0; split; [apply glue_hosts | reflexivity]
    | intros lv ch0 a0 k0 HQ s0 Hs0; split; [eapply R_act; exact HQ | rewrite act_mods; exact Hs0]
    | intros lv ch0 e0 k0 HQ s0 Hs0; split; [eapply R_line; exact HQ | rewrite line_mods; exact Hs0]
    | intros lv ch0 ls0 ok0 k0 HQ s0 Hs0; split; [replace (is_ok (fst (guard ls0 s0))) with true by (unfold guard; destruct (foreach line ls0 s0) as [[? | ?] ?]; reflexivity); eapply R_guard; exact HQ | rewrite guard_mods; exact Hs0]
    | intros lv ch0 c0 m0 _; apply rt_export
    | exact rt_load
    | intros fu0 ch0 c0 fn0 ar0 k0 md0 f0 _ _ _ _ H0; exact H0
    | intros fu0 ch0 c0 fn0 ar0 k0 md0 f0 _ _ _ H0; apply rt_bind; [apply rt_glue; intros s0; split; [apply glue_note; exact I | reflexivity] | intros _; exact H0]
    | .. ].
  Theorem run_rel fuel ch p s : each Q p -> mods_all QM (s_mods s) ->
    Rel s (is_ok (fst (run L fuel ch p s))) (snd (run L fuel ch p s)) /\ mods_all QM (s_mods (snd (run L fuel ch p s))).
  Proof using All. intros HP. revert s. change (rel_t pyval ch (run L fuel ch p)). feed T_run; exact HP. Qed.
  Theorem import_rel fuel kind ch n s : mods_all QM (s_mods s) ->
    Rel s (is_ok (fst (plain_import L (deeper L fuel) kind ch n s))) (snd (plain_import L (deeper L fuel) kind ch n s)) /\
    mods_all QM (s_mods (snd (plain_import L (deeper L fuel) kind ch n s))).
  Proof using All. revert s. change (rel_t unit ch (plain_import L (deeper L fuel) kind ch n)). feed T_top_import. Qed.
  Theorem call_rel fuel ch c fn args k s : Q (PCall c fn args k) -> mods_all QM (s_mods s) ->
    Rel s (is_ok (fst (call L (deeper L fuel) ch c fn args s))) (snd (call L (deeper L fuel) ch c fn args s)) /\
    mods_all QM (s_mods (snd (call L (deeper L fuel) ch c fn args s))).
  Proof using All. intros HP. revert s. change (rel_t pyval ch (call L (deeper L fuel) ch c fn args)). feed T_top_call; exact HP. Qed.
End RunRel.
