(** * Isolation of a contract's storage: the induction over running code *)
From Verif Require Import Model.Base Model.State Model.Dec Model.Time Model.Value Model.Encoder Model.Hdf5 Model.Runtime Model.Driver Model.Orm Model.Exec Model.Executor.
From Verif Require Import Spec.OrmSpec Spec.ExecSpec Spec.IsolationSpec Proofs.BaseFacts Proofs.DriverFacts Proofs.OrmFacts Proofs.ExecFacts Proofs.ExecRel Proofs.SubmitFacts Proofs.TxFacts Proofs.MeterFacts.
From Coq Require Import Lia.
Local Open Scope string_scope.
Local Open Scope list_scope.

Lemma look_find s k : look s k = find k (s_drv s).
Proof. unfold look. apply get_result. Qed.
Lemma last_dot a b x y : ~ In (ch ".") x -> ~ In (ch ".") y -> a ++ u "." ++ x = b ++ u "." ++ y -> a = b /\ x = y.
Proof.
  intros Hx Hy E. assert (E2 : rev x ++ ch "." :: rev a = rev y ++ ch "." :: rev b).
  { apply (f_equal (@rev N)) in E. rewrite !rev_app_distr in E. cbn [u rev app] in E. rewrite <- !app_assoc in E. exact E. }
  assert (S1 : split1 (ch ".") (rev x ++ ch "." :: rev a) = Some (rev x, rev a)) by (apply split1_app; rewrite <- in_rev; exact Hx).
  assert (S2 : split1 (ch ".") (rev y ++ ch "." :: rev b) = Some (rev y, rev b)) by (apply split1_app; rewrite <- in_rev; exact Hy).
  rewrite E2, S2 in S1. injection S1 as E3 E4. apply (f_equal (@rev N)) in E3, E4. rewrite !rev_involutive in E3, E4. auto.
Qed.
Lemma set_look k x b w w' : set k x b w = (Ok tt, w') -> forall j, j <> k -> find j (w_drv w') = find j (w_drv w).
Proof.
  intros E j NJ. destruct (set_spec k x b w) as [(y & r & t & _ & _ & _ & HD & _)|(e & r & HE & _)]; [|rewrite E in HE; discriminate]. rewrite E in HD. cbn [snd] in HD. rewrite HD.
  unfold find. destruct (w_drv w) as [a0 a1 a2 a3 a4 a5 a6]. cbn. unfold pget. rewrite dget_dset_other by exact NJ. reflexivity.
Qed.
Section Iso.
  Variables (L : lang) (c : pystr) (Own : prog -> Prop) (R : (pystr -> result pyval) -> (pystr -> result pyval) -> Prop).
  Hypothesis HR : storage_relation c R.
  Hypothesis HL : honest_language L c.
  Hypothesis HK : keeps_storage L c Own R.
  Notation DW := (deployed_world L c Own).
  Notation tri := (preserves L c Own R).

  Lemma code_in_storage : storage_of c (c ++ u ".__code__").
  Proof. exists CODE_KEY. split; [reflexivity|]. split; [vm_compute; intuition discriminate|discriminate]. Qed.
  (** steps that change no protected key *)
  Lemma step_ok s s' : DW s -> (forall k, storage_of c k \/ code_key k -> look s' k = look s k) -> mods_all (loadable L c Own) (s_mods s') -> DW s' /\ R (look s) (look s').
  Proof using HR.
    intros [D1 D2 D3] H HM. split; [|apply (sr_local c R HR); intros k Hk; apply H; left; exact Hk]. constructor; [| |exact HM].
    - rewrite H; [exact D1|left; apply code_in_storage].
    - intros n x b md Hn E. rewrite H in E by (right; exists n; split; [exact Hn|reflexivity]). exact (D2 n x b md Hn E).
  Qed.
  Lemma glue_look s s' : glue s s' -> forall k, look s' k = look s k.
  Proof. intros [[x Hx] _ _ _ _] k. rewrite !look_find, Hx. apply find_set_reads. Qed.
  Lemma quiet {A} (m : st mach A) : (forall s, glue s (snd (m s)) /\ s_mods (snd (m s)) = s_mods s) -> tri m.
  Proof using HR.
    intros H s a s' D E. destruct (H s) as [G M]. rewrite E in G, M. cbn [snd] in G, M. apply step_ok; [exact D|intros k _; apply glue_look, G|rewrite M; apply (dw_mods L c Own _ D)].
  Qed.
  Lemma tri_bind {A B} (m : st mach A) (k : A -> st mach B) : tri m -> (forall a, tri (k a)) -> tri (bind m k).
  Proof using HR.
    intros Hm Hk s b s' D E. rewrite bind_eq in E. destruct (m s) as [[a|e] s1] eqn:E1; [|discriminate]. destruct (Hm s a s1 D E1) as [D1 R1]. destruct (Hk a s1 b s' D1 E) as [D2 R2].
    split; [exact D2|]. exact (sr_trans c R HR _ _ _ R1 R2).
  Qed.
  (** ... when the second step needs what the first has found *)
  Lemma tri_bind_if {A B} (m : st mach A) (k : A -> st mach B) (P : A -> Prop) : tri m -> (forall s a s', DW s -> m s = (Ok a, s') -> P a) -> (forall a, P a -> tri (k a)) -> tri (bind m k).
  Proof using HR.
    intros Hm HP Hk s b s' D E. rewrite bind_eq in E. destruct (m s) as [[a|e] s1] eqn:E1; [|discriminate]. destruct (Hm s a s1 D E1) as [D1 R1]. destruct (Hk a (HP s a s1 D E1) s1 b s' D1 E) as [D2 R2].
    split; [exact D2|]. exact (sr_trans c R HR _ _ _ R1 R2).
  Qed.
  Lemma tri_ret {A} (a : A) : tri (ret a). Proof using HR. apply quiet. intros s. split; [apply glue_refl|reflexivity]. Qed.
  Lemma tri_raise {A} e : tri (raise e : st mach A). Proof. intros s a s' _ E. discriminate. Qed.
  Lemma tri_lift {A} (r : result A) : tri (lift r). Proof using HR. apply quiet. intros s. split; [apply glue_refl|reflexivity]. Qed.
  Lemma tri_gets {A} (f : mach -> A) : tri (gets f). Proof using HR. apply quiet. intros s. split; [apply glue_refl|reflexivity]. Qed.
  Lemma tri_read {A} (m : st driver A) : reads_only m -> tri (on_w (on_drv m)).
  Proof using HR.
    intros H s a s' D E. apply step_ok; [exact D| |].
    - intros k _. rewrite !look_find. unfold on_w, on_drv in E. destruct (H (w_drv (s_w s))) as (x & Hx). unfold s_drv. destruct (m (w_drv (s_w s))) as [r v]. cbn [snd] in Hx. subst v. injection E as _ <-. apply find_set_reads.
    - pose proof (on_w_mods (on_drv m) s) as M. rewrite E in M. cbn [snd] in M. rewrite M. apply (dw_mods L c Own _ D).
  Qed.
  (** changes of the runtime only *)
  Lemma tri_modify (f : mach -> mach) : (forall s, s_drv (f s) = s_drv s) -> (forall s, s_mods (f s) = s_mods s) -> tri (modify f).
  Proof using HR. intros H1 H2 s a s' D E. injection E as _ <-. apply step_ok; [exact D|intros k _; rewrite !look_find, H1; reflexivity|rewrite H2; apply (dw_mods L c Own _ D)]. Qed.
  (** a write of the world *)
  Definition wtri {A} (m : st world A) : Prop := forall w a w', m w = (Ok a, w') -> forall k, storage_of c k \/ code_key k -> find k (w_drv w') = find k (w_drv w).
  Lemma wtri_bind {A B} (m : st world A) (k : A -> st world B) : wtri m -> (forall a, wtri (k a)) -> wtri (bind m k).
  Proof. intros Hm Hk w b w' E j Hj. rewrite bind_eq in E. destruct (m w) as [[a|e] w1] eqn:E1; [|discriminate]. rewrite (Hk a _ _ _ E j Hj). exact (Hm _ _ _ E1 j Hj). Qed.
  Lemma wtri_ret {A} (a : A) : wtri (ret a). Proof. intros w x w' E. injection E as _ <-. reflexivity. Qed.
  Lemma wtri_lift {A} (r : result A) : wtri (lift r). Proof. intros w x w' E. injection E as _ <-. reflexivity. Qed.
  Lemma wtri_gets {A} (f : world -> A) : wtri (gets f). Proof. intros w x w' E. injection E as _ <-. reflexivity. Qed.
  Lemma wtri_read {A} (m : st driver A) : reads_only m -> wtri (on_drv m).
  Proof. intros H w a w' E k _. unfold on_drv in E. destruct (H (w_drv w)) as (x & Hx). destruct (m (w_drv w)) as [r v]. cbn [snd] in Hx. subst v. injection E as _ <-. apply find_set_reads. Qed.
  Lemma wtri_set k x b : harmless c k -> wtri (set k x b).
  Proof. intros [H1 H2] w [] w' E j Hj. apply (set_look _ _ _ _ _ E). intros ->. destruct Hj; contradiction. Qed.
  Lemma wtri_foreach {A} (f : A -> st world unit) l : (forall a, In a l -> wtri (f a)) -> wtri (foreach f l).
  Proof. induction l as [|a l IH]; intros H; cbn [foreach]; [apply wtri_ret|]. apply wtri_bind; [apply H; left; reflexivity|]. intros _. apply IH. intros b Hb. apply H. right. exact Hb. Qed.
  Lemma wtri_act a : foreign_action L c a -> wtri (do_act L a).
  Proof using HL.
    destruct a as [x|x v|h k|h k v|h l|h l|e p d|salt|d|n x|n x v|nm code o now dev]; cbn [foreign_action do_act]; intros HF.
    - unfold var_get. apply wtri_bind; [apply wtri_read, ro_get|intros; apply wtri_ret].
    - apply wtri_bind; [|intros; apply wtri_ret]. unfold var_set. apply wtri_bind; [|intros; apply wtri_set, HF].
      destruct (v_type x); [|apply wtri_ret]. destruct (is_none v); [apply wtri_ret|]. apply wtri_bind; [apply wtri_lift|intros; apply wtri_lift].
    - unfold hash_get. apply wtri_bind; [apply wtri_lift|]. intros s. apply wtri_bind; [apply wtri_read, ro_get|]. intros y.
      destruct (if is_none y then h_default h else y); try apply wtri_ret; (apply wtri_bind; [apply wtri_lift|intros; apply wtri_ret]).
    - apply wtri_bind; [|intros; apply wtri_ret]. intros w [] w' E j Hj. unfold hash_set in E. rewrite bind_eq in E. cbn [lift] in E. destruct (validate_key (l_ostr L) k) as [s|] eqn:EV; [|discriminate].
      exact (wtri_set _ _ _ (HF s eq_refl) _ _ _ E j Hj).
    - apply wtri_bind; [|intros; apply wtri_ret]. unfold hash_all. apply wtri_bind; [apply wtri_lift|]. intros p. apply wtri_read, ro_values.
    - apply wtri_bind; [|intros; apply wtri_ret]. intros w [] w' E j Hj. unfold hash_clear in E. rewrite bind_eq in E. unfold hash_items in E. rewrite bind_eq in E. cbn [lift] in E.
      destruct (prefix_for_args (l_ostr L) h l) as [p|] eqn:EP; [|discriminate]. destruct (on_drv (items (l_ord L) p) w) as [[its|] w1] eqn:EI; [|discriminate].
      assert (E1 : find j (w_drv w1) = find j (w_drv w)) by (exact (wtri_read _ (ro_items _ _) _ _ _ EI j Hj)). rewrite <- E1.
      assert (HP : forall k, In k (dkeys its) -> startswith k (h_key h ++ u ":") = true).
      { intros k Hk. unfold on_drv in EI. destruct (items (l_ord L) p (w_drv w)) as [r v] eqn:EI2. injection EI as -> <-. pose proof (items_prefix _ _ _ _ _ _ (hl_order L c HL) EI2 Hk) as HS.
        unfold prefix_for_args in EP. destruct (validate_key (l_ostr L) (HTup l)) as [m|]; [|discriminate]. cbn [bindr] in EP. injection EP as <-.
        apply startswith_spec in HS as (r & ->). apply startswith_spec. eexists. rewrite <- !app_assoc. reflexivity. }
      assert (HW : wtri (foreach delete (dkeys its))) by (apply wtri_foreach; intros k Hk; apply wtri_set, HF, HP, Hk). exact (HW _ _ _ E j Hj).
    - apply wtri_bind.
      + unfold log_decl. apply wtri_bind; [apply wtri_gets|]. intros sg. apply wtri_bind; [apply wtri_lift|]. intros _. apply wtri_bind; [apply wtri_lift|]. intros _.
        apply wtri_bind; [|intros; apply wtri_ret]. apply wtri_foreach. intros q _. destruct (p_types (snd q)); [apply wtri_lift|]. intros w x w' E; discriminate.
      + intros ev. apply wtri_bind; [|intros; apply wtri_ret]. unfold log_emit. apply wtri_bind; [apply wtri_gets|]. intros cs.
        assert (HP : forall params kv, wtri (pay_arg params kv)).
        { intros params kv. unfold pay_arg. apply wtri_bind; [apply wtri_lift|]. intros q. apply wtri_bind; [apply wtri_lift|]. intros b. apply wtri_bind; [apply wtri_lift|]. intros _. apply wtri_bind; [apply wtri_lift|]. intros [kl vl].
          intros w x w' E. unfold on_rt in E. destruct (deduct_write kl vl (w_rt w)). injection E as _ <-. reflexivity. }
        apply wtri_bind; [apply wtri_lift|]. intros _. apply wtri_bind; [apply wtri_foreach; intros; apply wtri_lift|]. intros _.
        apply wtri_bind; [apply wtri_foreach; intros; apply wtri_lift|]. intros _. apply wtri_bind; [apply wtri_lift|]. intros ix. apply wtri_bind; [apply wtri_lift|]. intros dt.
        apply wtri_bind; [apply wtri_foreach; intros; apply HP|]. intros _. apply wtri_bind; [apply wtri_foreach; intros; apply HP|]. intros _.
        intros w x w' E k _. injection E as _ <-. reflexivity.
    - unfold do_seed. apply wtri_bind; [apply wtri_gets|]. intros r. apply wtri_bind; [apply wtri_lift|]. intros s. apply wtri_bind; [|intros; apply wtri_ret]. intros w x w' E k _. injection E as _ <-. reflexivity.
    - unfold do_random. apply wtri_bind; [apply wtri_gets|]. intros r. destruct (rt_seeded r) as [[s ds]|]; [|intros w x w' E; discriminate].
      apply wtri_bind; [|intros; apply wtri_lift]. intros w x w' E k _. injection E as _ <-. reflexivity.
    - apply wtri_read, ro_get.
    - apply wtri_bind; [|intros; apply wtri_ret]. apply wtri_set, HF.
    - destruct HF.
  Qed.
  Lemma tri_world {A} (m : st world A) : wtri m -> tri (on_w m).
  Proof using HR.
    intros H s a s' D E. apply step_ok; [exact D| |].
    - intros k Hk. rewrite !look_find. unfold on_w in E. destruct (m (s_w s)) as [r w] eqn:EM. injection E as -> <-. exact (H _ _ _ EM k Hk).
    - pose proof (on_w_mods m s) as M. rewrite E in M. cbn [snd] in M. rewrite M. apply (dw_mods L c Own _ D).
  Qed.
  Lemma tri_act a : wtri (do_act L a) -> tri (act L a).
  Proof using HR.
    intros H s v s' D E. unfold act in E. destruct (on_w (do_act L a) s) as [[x|e] s1] eqn:E1; [|discriminate]. injection E as -> <-.
    destruct (tri_world _ H _ _ _ D E1) as [D1 R1]. destruct (step_ok s1 (note (OAct (get_state (s_ctx s)) a) s1) D1 (fun _ _ => eq_refl) (dw_mods L c Own _ D1)) as [D2 _]. split; [exact D2|exact R1].
  Qed.
  Lemma line_look e s : s_drv (snd (line e s)) = s_drv s.
  Proof. unfold line, on_w, on_rt, on_tracer. cbn [note set_log s_w]. destruct (on_line e (rt_tracer (w_rt (s_w s)))) as [r t]. reflexivity. Qed.
  Lemma lines_look ls : forall s, s_drv (snd (foreach line ls s)) = s_drv s.
  Proof. induction ls as [|e ls IH]; intros s; [reflexivity|]. cbn [foreach]. unfold bind. pose proof (line_look e s) as H. destruct (line e s) as [[v|x] s1]; cbn [snd] in *; [rewrite IH|]; exact H. Qed.
  Lemma tri_same {A} (m : st mach A) : (forall s, s_drv (snd (m s)) = s_drv s) -> (forall s, s_mods (snd (m s)) = s_mods s) -> tri m.
  Proof using HR.
    intros H1 H2 s a s' D E. specialize (H1 s). specialize (H2 s). rewrite E in H1, H2. cbn [snd] in H1, H2. apply step_ok; [exact D|intros k _; rewrite !look_find, H1; reflexivity|rewrite H2; apply (dw_mods L c Own _ D)].
  Qed.
  Lemma tri_line e : tri (line e). Proof using HR. apply tri_same; [apply line_look|apply line_mods]. Qed.
  Lemma tri_guard ls : tri (guard ls).
  Proof using HR.
    apply tri_same; [|apply guard_mods]. intros s. unfold guard. pose proof (lines_look ls s) as H. destruct (foreach line ls s) as [[v|e] s1]; exact H.
  Qed.
  Lemma tri_export chn n (m : st mach pyval) : tri m -> tri (with_export chn n m).
  Proof using HR.
    intros Hm s a s' D E. unfold with_export in E. destruct (enter_glue n s) as [G M]. destruct (enter n s) as [[[]|e] s1]; cbn [fst snd] in *; [|discriminate].
    set (s2 := note _ s1) in E. assert (D2 : DW s2 /\ R (look s) (look s2)).
    { apply step_ok; [exact D|intros k _; change (look s2 k) with (look s1 k); apply glue_look, G|]. change (s_mods s2) with (s_mods s1). rewrite M. apply (dw_mods L c Own _ D). }
    destruct D2 as [D2 R2]. destruct (m s2) as [r s3] eqn:E3. injection E as -> <-. destruct (Hm s2 a s3 D2 E3) as [D3 R3].
    assert (D4 : DW (upd_ctx pop_state s3) /\ R (look s3) (look (upd_ctx pop_state s3))) by (apply step_ok; [exact D3|reflexivity|exact (dw_mods L c Own _ D3)]).
    split; [apply D4|]. eapply (sr_trans c R HR); [exact R2|]. eapply (sr_trans c R HR); [exact R3|apply D4].
  Qed.

  (** ** One level of calls *)
  Section Level.
    Variable RR : list pystr -> prog -> st mach pyval.
    Hypothesis H_foreign : forall chn p, foreign L c p -> tri (RR chn p).
    Hypothesis H_own : forall chn p, Own p -> tri (RR chn p).
    Hypothesis H_sub : forall chn p, submission_body L p -> tri (RR chn p).
    Lemma tri_func chn md fn f args : loadable L c Own md -> dget fn (m_funcs md) = Some f -> tri (RR chn (f_body f args)).
    Proof using H_foreign H_own H_sub.
      intros [->|[_ HM]] E; [apply H_sub; exists fn, f, args; auto|]. destruct (HM fn f args E); auto.
    Qed.
    Lemma init_foreign md : loadable L c Own md -> foreign L c (m_init md).
    Proof. intros [->|[H _]]; [cbn; split; exact I|exact H]. Qed.
    Lemma fetch_loadable n s md s' : ~ In (ch ":") n -> DW s -> fetch L n s = (Ok md, s') -> loadable L c Own md /\ glue s s' /\ s_mods s' = s_mods s.
    Proof.
      intros Hn D E. unfold fetch in E. rewrite bind_eq in E. pose proof (glue_read (get_compiled n) s (ro_get _) (rg_get _)) as G. pose proof (on_w_mods (on_drv (get_compiled n)) s) as M.
      assert (LK : fst (on_w (on_drv (get_compiled n)) s) = look s (n ++ u ".__compiled__")).
      { unfold look, on_w, on_drv, get_compiled, get_var, s_drv. cbn [make_key]. change (n ++ u "." ++ COMPILED_KEY) with (n ++ u ".__compiled__"). destruct (get (n ++ u ".__compiled__") (w_drv (s_w s))). reflexivity. }
      destruct (on_w (on_drv (get_compiled n)) s) as [[x|e] s1]; cbn [fst snd] in *; [|discriminate]. rewrite bind_eq in E. cbn [lift] in E.
      fold (blob_of x) in E. destruct (blob_of x) as [b|] eqn:EB; [|discriminate]. injection E as EI <-. split; [|auto]. exact (dw_stored L c Own s D n x b md Hn (eq_sym LK) EB EI).
    Qed.
    Lemma tri_load chn n : ~ In (ch ":") n -> tri (load L RR chn n).
    Proof using HR H_foreign.
      intros Hn s [] s' D E. unfold load in E. set (s0 := set_mods (dset n None (s_mods s)) s) in E.
      assert (D0 : DW s0). { destruct D as [A B C]. constructor; [exact A|exact B|]. intros m md. unfold s0. cbn. rewrite dget_dset. destruct (str_eqb m n); [discriminate|apply C]. }
      rewrite bind_eq in E. destruct (fetch L n s0) as [[md|e] s1] eqn:EF; [|discriminate]. destruct (fetch_loadable n s0 md s1 Hn D0 EF) as (HM & G & M).
      assert (D1 : DW s1 /\ R (look s) (look s1)) by (apply step_ok; [exact D|intros k _; exact (glue_look _ _ G k)|rewrite M; apply (dw_mods L c Own _ D0)]). destruct D1 as [D1 R1].
      rewrite bind_eq in E. match type of E with context [RR ?x ?y ?z] => destruct (RR x y z) as [[v|e] s2] eqn:ER end; [|discriminate]. destruct (H_foreign _ _ (init_foreign md HM) _ _ _ D1 ER) as [D2 R2].
      cbn [ret] in E. injection E as <-. match goal with |- DW ?S /\ _ => assert (D3 : DW S /\ R (look s2) (look S)) end.
      { apply step_ok; [exact D2|reflexivity|]. intros m md'. cbn. rewrite dget_dset. destruct (str_eqb m n); [intros E; injection E as <-; exact HM|apply (dw_mods L c Own _ D2)]. }
      split; [apply D3|]. eapply (sr_trans c R HR); [exact R1|]. eapply (sr_trans c R HR); [exact R2|apply D3].
    Qed.
    Lemma tri_imported kd n : tri (imported kd n). Proof using HR. apply tri_modify; reflexivity. Qed.
    Lemma tri_hosted n : tri (hosted n). Proof using HR. apply tri_modify; reflexivity. Qed.
    Lemma tri_plain kd chn n : ~ In (ch ":") n -> tri (plain_import L RR kd chn n).
    Proof using HR H_foreign.
      intros Hn. unfold plain_import. apply tri_bind; [apply tri_gets|]. intros there. destruct there; [apply tri_imported|]. destruct (l_sysmod L n); [apply tri_bind; [apply tri_hosted|intros; apply tri_imported]|].
      apply tri_bind; [apply tri_read, ro_get|]. intros x. destruct (negb (is_none x)); [apply tri_bind; [apply tri_load, Hn|intros; apply tri_imported]|].
      destruct (l_host L n); [apply tri_bind; [apply tri_hosted|intros; apply tri_imported]|apply tri_raise].
    Qed.
    Lemma tri_import kd chn n : ~ In (ch ":") n -> tri (import L RR kd chn n).
    Proof using HR H_foreign.
      intros Hn. destruct kd; cbn [import].
      - apply tri_bind; [apply tri_gets|]. intros r. destruct r; [|apply tri_plain, Hn]. unfold restricted_import. apply tri_bind; [apply tri_gets|]. intros there. destruct there; [apply tri_imported|].
        destruct (l_sysmod L n); [apply tri_raise|]. apply tri_bind; [apply tri_read, ro_get|]. intros x. destruct (negb (is_none x)); [apply tri_bind; [apply tri_load, Hn|intros; apply tri_imported]|apply tri_raise].
      - unfold lib_import. apply tri_bind; [apply tri_lift|]. intros _. apply tri_bind; [apply tri_lift|]. intros _. apply tri_bind; [destruct (l_stdlib L n); [apply tri_raise|apply tri_ret]|]. intros _.
        apply tri_bind; [destruct (startswith n (u "_")); [apply tri_raise|apply tri_ret]|]. intros _. apply tri_bind; [apply tri_read, ro_get|]. intros x. destruct (is_none x); [apply tri_raise|apply tri_plain, Hn].
    Qed.
    Lemma tri_call chn n fn args : tri (call L RR chn n fn args).
    Proof using HR HL H_foreign H_own H_sub.
      intros s a s' D E. unfold call in E. rewrite bind_eq in E. cbn [gets] in E. destruct (dget n (s_mods s)) as [[md|]|] eqn:EM; [|discriminate|].
      - destruct (dget fn (m_funcs md)) as [f|] eqn:EF; [|discriminate]. pose proof (dw_mods L c Own s D n md EM) as HM. unfold invoke in E. destruct (f_export f) as [x|]; [|exact (tri_func _ md fn f args HM EF s a s' D E)].
        exact (tri_export _ _ _ (tri_func _ md fn f args HM EF) s a s' D E).
      - rewrite bind_eq in E. cbn [gets] in E. destruct (str_mem n (s_hosts s)); [|discriminate]. destruct (l_host L n) as [md|] eqn:EH; [|discriminate].
        destruct (dget fn (m_funcs md)) as [f|] eqn:EF; [|discriminate]. refine (tri_bind _ _ (tri_modify _ _ _) _ s a s' D E); [reflexivity|reflexivity|]. intros _. apply H_foreign. exact (hl_host L c HL n md EH fn f args EF).
    Qed.
    Lemma tri_exec chn n code args : n <> c -> tri (exec_code L RR chn n code args).
    Proof using HR HL H_foreign.
      intros Hn s a s' D E. unfold exec_code in E. rewrite bind_eq in E. cbn [lift] in E. destruct (l_compile L n code) as [text|] eqn:EC; [|discriminate]. rewrite bind_eq in E. cbn [lift] in E. destruct (l_marshal L text) as [b|] eqn:EB; [|discriminate].
      rewrite bind_eq in E. cbn [lift] in E. destruct (l_interp L b) as [md|] eqn:EI; [|discriminate]. destruct (hl_compiled L c HL n code text b md Hn EC EB EI) as (HI & HT & _).
      refine (tri_bind _ _ (H_foreign _ _ HI) _ s a s' D E). intros top. apply tri_bind; [destruct (m_ctor md) as [f|]; [apply H_foreign, HT; reflexivity|apply tri_ret]|]. intros _. destruct (is_none top); [apply tri_gets|apply tri_ret].
    Qed.
    Lemma tri_go chn p : foreign L c p -> tri (go L RR chn p).
    Proof using HR HL H_foreign H_own H_sub.
      unfold foreign. revert chn. induction p as [v|e|e k IH|a k IH|k IH|n k IH|kd n k IH|n fn args k IH|exp b IHb k IH|ls ok k IH|n code args k IH]; intros chn; cbn [each foreign_node go]; intros [HN HP].
      - apply tri_ret.
      - apply tri_raise.
      - apply tri_bind; [apply tri_line|]. intros _. apply IH, HP.
      - apply tri_bind; [apply tri_act, wtri_act, HN|]. intros v. apply IH, HP.
      - apply tri_bind; [apply tri_gets|]. intros cs. apply IH, HP.
      - apply tri_bind; [apply tri_gets|]. intros e. destruct (dget n e); [apply IH, HP|apply tri_raise].
      - apply tri_bind; [apply tri_import, HN|]. intros _. apply IH, HP.
      - apply tri_bind; [apply tri_call|]. intros v. apply IH, HP.
      - destruct HP as [HB HP]. apply tri_bind; [|intros v; apply IH, HP]. destruct exp; [apply tri_export|]; apply H_foreign, HB.
      - apply tri_bind; [apply tri_guard|]. intros v. apply IH, HP.
      - apply tri_bind; [apply tri_exec, HN|]. intros v. apply IH, HP.
    Qed.
    (** *** The submission contract *)
    Lemma meta_other w n x v a w' : set_var n x [] v w = (Ok a, w') -> forall j, j <> n ++ u "." ++ x -> find j (w_drv w') = find j (w_drv w).
    Proof. destruct a. intros E j Hj. exact (set_look _ _ _ _ _ E j Hj). Qed.
    Lemma meta_bytes w n x b w' : set_var n x [] (VBytes b) w = (Ok tt, w') -> find (n ++ u "." ++ x) (w_drv w') = Ok (VBytes b) \/ find (n ++ u "." ++ x) (w_drv w') = find (n ++ u "." ++ x) (w_drv w).
    Proof.
      intros E. destruct (set_spec (n ++ u "." ++ x) (VBytes b) false w) as [(y & r & t & HY & _ & _ & HD & _)|(e & r & HE & _)]; change (set (n ++ u "." ++ x) (VBytes b) false w) with (set_var n x [] (VBytes b) w) in *; [|rewrite E in HE; discriminate].
      injection HY as <-. rewrite E in HD. cbn [snd] in HD. rewrite HD. unfold find. destruct (w_drv w) as [a0 a1 a2 a3 a4 a5 a6 a7]. cbn. unfold pget. rewrite dget_dset_same. destruct a6; [right|left]; reflexivity.
    Qed.
    Lemma set_contract_inv n code o now dev a w w' : set_contract (l_marshal L) n code o now dev w = (Ok a, w') ->
      (forall j, find j (w_drv w') = find j (w_drv w)) \/
      exists b, l_marshal L code = Ok b /\ (find (n ++ u ".__compiled__") (w_drv w') = Ok (VBytes b) \/ find (n ++ u ".__compiled__") (w_drv w') = find (n ++ u ".__compiled__") (w_drv w)) /\
        forall j, (forall x, In x [CODE_KEY; COMPILED_KEY; OWNER_KEY; TIME_KEY; DEVELOPER_KEY] -> j <> n ++ u "." ++ x) -> find j (w_drv w') = find j (w_drv w).
    Proof.
      unfold set_contract. intros E. rewrite bind_eq in E. unfold on_drv in E. destruct (ro_get (n ++ u "." ++ CODE_KEY) (w_drv w)) as (x & Hx). change (get (n ++ u "." ++ CODE_KEY) (w_drv w)) with (get_contract n (w_drv w)) in Hx.
      destruct (get_contract n (w_drv w)) as [[v|e] v1]; cbn [snd] in Hx; [|discriminate]. subst v1. set (w0 := mkW _ _) in E. assert (H0 : forall j, find j (w_drv w0) = find j (w_drv w)) by (intros j; apply find_set_reads).
      destruct (is_none v); [|injection E as _ <-; left; exact H0]. right. clearbody w0. rewrite bind_eq in E. cbn [lift] in E. destruct (l_marshal L code) as [b|]; [|discriminate]. exists b. split; [reflexivity|].
      rewrite bind_eq in E. match type of E with context [set_var ?n ?x ?y ?z ?w] => destruct (set_var n x y z w) as [[[]|] w1] eqn:E1 end; [|discriminate].
      rewrite bind_eq in E. match type of E with context [set_var ?n ?x ?y ?z ?w] => destruct (set_var n x y z w) as [[[]|] w2] eqn:E2 end; [|discriminate].
      rewrite bind_eq in E. match type of E with context [set_var ?n ?x ?y ?z ?w] => destruct (set_var n x y z w) as [[[]|] w3] eqn:E3 end; [|discriminate].
      rewrite bind_eq in E. match type of E with context [set_var ?n ?x ?y ?z ?w] => destruct (set_var n x y z w) as [[[]|] w4] eqn:E4 end; [|discriminate].
      split.
      - assert (ND : forall x, x <> COMPILED_KEY -> n ++ u ".__compiled__" <> n ++ u "." ++ x) by (intros y Hy E5; apply app_inv_head in E5; apply Hy; cbn in E5; injection E5 as E5; symmetry; exact E5).
        rewrite (meta_other _ _ _ _ _ _ E), (meta_other _ _ _ _ _ _ E4), (meta_other _ _ _ _ _ _ E3) by (apply ND; discriminate). rewrite <- H0. rewrite <- (meta_other _ _ _ _ _ _ E1) by (apply ND; discriminate). exact (meta_bytes _ _ _ _ _ E2).
      - intros j Hj. rewrite (meta_other _ _ _ _ _ _ E), (meta_other _ _ _ _ _ _ E4), (meta_other _ _ _ _ _ _ E3), (meta_other _ _ _ _ _ _ E2), (meta_other _ _ _ _ _ _ E1); [apply H0|..]; apply Hj; cbn [In]; tauto.
    Qed.
    Lemma meta_dotless x : In x [CODE_KEY; COMPILED_KEY; OWNER_KEY; TIME_KEY; DEVELOPER_KEY] -> ~ In (ch ".") x.
    Proof. intros [<-|[<-|[<-|[<-|[<-|[]]]]]]; vm_compute; intuition discriminate. Qed.
    Lemma tri_set_contract n code text o now dev : n <> c -> l_compile L n code = Ok text -> tri (act L (ActSetContract n text o now dev)).
    Proof using HR HL.
      intros Hn HC s a s' D E. unfold act in E. destruct (on_w (do_act L (ActSetContract n text o now dev)) s) as [[v|e] s1] eqn:E1; [|discriminate]. injection E as -> <-.
      assert (HM : s_mods s1 = s_mods s) by (pose proof (on_w_mods (do_act L (ActSetContract n text o now dev)) s) as M; rewrite E1 in M; exact M).
      assert (HS : (forall j, look s1 j = look s j) \/ exists b, l_marshal L text = Ok b /\ (look s1 (n ++ u ".__compiled__") = Ok (VBytes b) \/ look s1 (n ++ u ".__compiled__") = look s (n ++ u ".__compiled__")) /\
        forall j, (forall x, In x [CODE_KEY; COMPILED_KEY; OWNER_KEY; TIME_KEY; DEVELOPER_KEY] -> j <> n ++ u "." ++ x) -> look s1 j = look s j).
      { unfold on_w in E1. cbn [do_act] in E1. rewrite bind_eq in E1. destruct (set_contract (l_marshal L) n text o now dev (s_w s)) as [[[]|] w1] eqn:E2; [|discriminate]. cbn [ret] in E1. injection E1 as <- <-.
        destruct (set_contract_inv _ _ _ _ _ _ _ _ E2) as [H|(b & H1 & H2 & H3)]; [left; intros j; rewrite !look_find; apply H|]. right. exists b. split; [exact H1|]. split; [rewrite !look_find; exact H2|]. intros j Hj. rewrite !look_find. apply H3, Hj. }
      set (s2 := note _ s1). change (DW s2 /\ R (look s) (look s1)). destruct HS as [HS|(b & EB & HB & HS)].
      { destruct (step_ok s s2 D (fun k _ => HS k)) as [D2 R2]; [change (s_mods s2) with (s_mods s1); rewrite HM; apply (dw_mods L c Own _ D)|]. split; [exact D2|exact R2]. }
      assert (HSt : forall k, storage_of c k -> look s1 k = look s k).
      { intros k (r & -> & Hr & Hd). apply HS. intros x Hx E3. apply last_dot in E3; [|exact Hr|apply meta_dotless, Hx]. destruct E3 as [E3 _]. apply Hn. symmetry. exact E3. }
      split; [|apply (sr_local c R HR); exact HSt]. constructor.
      - change (look s2) with (look s1). rewrite HSt by apply code_in_storage. apply (dw_code L c Own _ D).
      - change (look s2) with (look s1). intros m x b' md Hm EX EB' EI. destruct (str_eqb_spec m n) as [->|Hmn].
        + destruct HB as [HB|HB]; rewrite HB in EX; [|exact (dw_stored L c Own _ D n x b' md Hm EX EB' EI)]. injection EX as <-. cbn [blob_of] in EB'. injection EB' as <-. destruct (hl_compiled L c HL n code text b md Hn HC EB EI) as (H1 & _ & H3). right. split; [exact H1|]. intros fn f args Hf. left. exact (H3 fn f args Hf).
        + rewrite HS in EX; [exact (dw_stored L c Own _ D m x b' md Hm EX EB' EI)|]. intros y Hy E3. change (m ++ u ".__compiled__") with (m ++ u "." ++ COMPILED_KEY) in E3. apply last_dot in E3; [|apply meta_dotless; cbn; tauto|apply meta_dotless, Hy]. destruct E3 as [E3 _]. exact (Hmn E3).
      - change (s_mods s2) with (s_mods s1). rewrite HM. apply (dw_mods L c Own _ D).
    Qed.
    Lemma tri_submit chn n code o args dev : tri (go L RR chn (submit_prog L n code o args dev)).
    Proof using HR HL H_foreign.
      unfold submit_prog. cbn [go]. apply (tri_bind_if _ _ (fun v => n = c -> is_none v = false)); [apply tri_act, wtri_act; exact I| |].
      - intros s v s' D E ->. unfold act in E. destruct (on_w (do_act L (ActGetVar c CODE_KEY)) s) as [[x|] s1] eqn:E1; [|discriminate]. injection E as -> _.
        pose proof (dw_code L c Own _ D) as HC. unfold on_w in E1. cbn [do_act] in E1. unfold on_drv, get_var in E1. cbn [make_key] in E1. change (c ++ u "." ++ CODE_KEY) with (c ++ u ".__code__") in E1. unfold look, s_drv in HC.
        destruct (get (c ++ u ".__code__") (w_drv (s_w s))) as [r1 v1]. injection E1 as -> _. cbn [fst] in HC. destruct v; try reflexivity. exfalso. apply HC. reflexivity.
      - intros v Hv. destruct (is_none v) eqn:EV; cbn [negb go]; [|apply tri_raise]. assert (Hn : n <> c) by (intros E; specialize (Hv E); discriminate).
        apply tri_bind; [apply tri_exec, Hn|]. intros now. destruct (l_compile L n code) as [text|] eqn:EC; cbn [go]; [|apply tri_raise]. apply tri_bind; [exact (tri_set_contract n code text o _ dev Hn EC)|]. intros _. apply tri_ret.
    Qed.
    Lemma developer_harmless n : harmless c (make_key n DEVELOPER_KEY []).
    Proof.
      cbn [make_key]. split.
      - intros (r & E & Hr & Hd). apply last_dot in E; [|apply meta_dotless; cbn; tauto|exact Hr]. destruct E as [_ E]. apply Hd. symmetry. exact E.
      - intros (m & _ & E). change (m ++ u ".__compiled__") with (m ++ u "." ++ COMPILED_KEY) in E. apply last_dot in E; [|apply meta_dotless; cbn; tauto|apply meta_dotless; cbn; tauto]. destruct E as [_ E]. discriminate.
    Qed.
    Lemma tri_change chn n v : tri (go L RR chn (change_developer_body n v)).
    Proof using HR HL.
      unfold change_developer_body. cbn [go]. apply tri_bind; [apply tri_gets|]. intros cs. apply tri_bind; [apply tri_act, wtri_act; exact I|]. intros d. destruct (is_owner d (c_caller cs)); cbn [go]; [|apply tri_raise].
      apply tri_bind; [apply tri_act, wtri_act; exact (developer_harmless n)|]. intros _. apply tri_ret.
    Qed.
    Lemma tri_submission chn p : submission_body L p -> tri (go L RR chn p).
    Proof using HR HL H_foreign.
      intros (fn & f & args & E & ->). cbn [submission_modul m_funcs dget] in E. destruct (str_eqb fn (u "submit_contract")); [|destruct (str_eqb fn (u "change_developer")); [|discriminate]]; injection E as <-; cbn [f_body].
      - repeat match goal with |- preserves _ _ _ _ (go _ _ _ (match ?x with _ => _ end)) => destruct x end; try apply tri_raise.
        unfold submit_contract_body. cbn [go]. apply tri_bind; [apply tri_gets|]. intros cs.
        destruct (_ && _)%bool; [apply tri_raise|]. destruct (negb _); [apply tri_raise|]. destruct (negb _); [apply tri_raise|]. destruct (negb _); [apply tri_raise|]. apply tri_submit.
      - repeat match goal with |- preserves _ _ _ _ (go _ _ _ (match ?x with _ => _ end)) => destruct x end; try apply tri_raise. apply tri_change.
    Qed.
  End Level.
  (** ** All levels *)
  Theorem tri_levels n : forall chn p, foreign L c p \/ Own p \/ submission_body L p -> tri (deeper L n chn p).
  Proof using HR HL HK.
    induction n as [|n IH]; intros chn p; [intros _; apply tri_raise|]. intros H. cbn [deeper]. destruct H as [H|[H|H]]; [|exact (HK p n chn H IH)|].
    - destruct n; cbn [run]; apply tri_go; auto; intros; try apply tri_raise; apply (IH chn0 p0); auto.
    - destruct n; cbn [run]; apply tri_submission; auto; intros; try apply tri_raise; apply (IH chn0 p0); auto.
  Qed.
End Iso.
