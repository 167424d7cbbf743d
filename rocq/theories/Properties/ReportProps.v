(** * C109: reports after they were returned; C110: the arguments execute was given *)
From Verif Require Import Model.Base Model.State Model.Dec Model.Time Model.Value Model.Encoder Model.Hdf5 Model.Runtime Model.Driver Model.Orm Model.Exec Model.Executor Model.Reports.
From Verif Require Import Spec.OrmSpec Spec.ExecSpec Spec.ReadsSpec Proofs.BaseFacts Proofs.DriverFacts Proofs.OrmFacts Proofs.ExecFacts Proofs.ExecRel Proofs.MeterFacts Proofs.TxFacts Proofs.DrvRel Proofs.PhaseRel Properties.Demo Properties.RandProps Properties.ReadsProps.
From Coq Require Import Lia.
Local Open Scope list_scope.
Local Open Scope nat_scope.

(** ** C109 *)
Lemma step_gone L fuel x ss : exists more, ss_gone (use_step L fuel x ss) = ss_gone ss ++ more.
Proof. destruct x; try (exists []; rewrite app_nil_r; reflexivity). eexists. reflexivity. Qed.
Lemma nth_kept {A} (l more : list A) i d : nth_error l i = Some d -> nth_error (l ++ more) i = Some d.
Proof. intros H. rewrite nth_error_app1; [exact H|]. apply nth_error_Some. congruence. Qed.
Lemma gone_fixed L fuel l : forall ss i d, nth_error (ss_gone ss) i = Some d -> nth_error (ss_gone (use_all L fuel l ss)) i = Some d.
Proof.
  induction l as [|x l IH]; intros ss i d H; [exact H|]. cbn [use_all fold_left]. apply IH. destruct (step_gone L fuel x ss) as (m & ->). apply nth_kept, H.
Qed.
(** Proved: hard_apply does not change a report, and after it nothing ever does *)
Theorem C109_hard_apply_keeps_partial L fuel n l ss rp : rp_reads rp <= current ss ->
  seen_reads (use_all L fuel (UHardApply n :: l) ss) rp = seen_reads ss rp.
Proof.
  intros HR. cbn [use_all fold_left].
  assert (H : nth_error (ss_gone (use_step L fuel (UHardApply n) ss)) (rp_reads rp) = Some (seen_reads ss rp)).
  { cbn [use_step ss_gone]. unfold seen_reads, reads_object. destruct (nth_error (ss_gone ss) (rp_reads rp)) as [d|] eqn:E; [apply nth_kept, E|].
    apply nth_error_None in E. unfold current in HR. assert (Q : rp_reads rp = List.length (ss_gone ss)) by lia. rewrite Q, nth_error_app2, Nat.sub_diag by lia. reflexivity. }
  apply (gone_fixed L fuel l) in H. unfold seen_reads at 1. unfold reads_object. unfold use_all in H. rewrite H. reflexivity.
Qed.
Lemma seen_current ss rp : rp_reads rp = current ss -> seen_reads ss rp = dv_reads (s_drv (ss_mach ss)).
Proof.
  intros H. unfold seen_reads, reads_object. destruct (nth_error (ss_gone ss) (rp_reads rp)) eqn:E; [|reflexivity].
  assert (N : rp_reads rp < List.length (ss_gone ss)) by (apply nth_error_Some; congruence). unfold current in H. lia.
Qed.
(** When it is returned, a report shows what execute returned *)
Theorem C109_at_first L fuel g t ss rp : reported L fuel g t ss = Some rp -> seen_reads (use_step L fuel (UExecute g t) ss) rp = o_reads (rp_output rp).
Proof.
  unfold reported. intros H. destruct (execute L fuel g t (ss_mach ss)) as [[out|e] s'] eqn:E; [|discriminate H]. cbn [fst] in H. injection H as <-.
  rewrite seen_current by reflexivity. cbn [use_step on_mach ss_mach rp_output]. rewrite E. cbn [snd].
  apply execute_inv in E as (_ & r & s1 & w & s3 & _ & _ & _ & -> & ->). reflexivity.
Qed.
(** REFUTED: a commit empties it; so do a rollback and flush_cache *)
Theorem C109_commit_refuted L fuel ss rp : rp_reads rp = current ss -> fst (commit (s_drv (ss_mach ss))) = Ok tt ->
  seen_reads (use_step L fuel UCommit ss) rp = [].
Proof.
  intros H E. rewrite seen_current by exact H. cbn [use_step on_mach ss_mach]. unfold on_w, on_drv. fold (s_drv (ss_mach ss)). unfold commit in *. rewrite bind_eq in *. cbn [gets] in *. rewrite bind_eq in *.
  destruct (on_disk _ (s_drv (ss_mach ss))) as [[[]|e] v]; cbn [fst] in E; [reflexivity|discriminate E].
Qed.
Theorem C109_rollback_refuted L fuel ss rp x : rp_reads rp = current ss -> x = URollback \/ x = UFlushCache -> seen_reads (use_step L fuel x ss) rp = [].
Proof. intros H [E|E]; subst x; (rewrite seen_current by exact H); reflexivity. Qed.
(** REFUTED: the next transaction (whoever's) adds what it reads *)
Theorem C109_later_refuted L fuel g t ss rp out s' : rp_reads rp = current ss -> t_auto t = false -> execute L fuel g t (ss_mach ss) = (Ok out, s') ->
  (metered g t = true -> dget (balance_key g t) (seen_reads (use_step L fuel (UExecute g t) ss) rp) <> None) /\
  (forall o k, In o (s_log s') -> accesses L o k -> dget k (seen_reads (use_step L fuel (UExecute g t) ss) rp) <> None).
Proof.
  intros H A E. rewrite seen_current by exact H. cbn [use_step on_mach ss_mach]. rewrite E. cbn [snd].
  assert (Q : o_reads out = dv_reads (s_drv s')). { apply execute_inv in E as (_ & r & s1 & w & s3 & _ & _ & _ & -> & ->). reflexivity. }
  destruct (C93_reads_partial _ _ _ _ _ _ _ A E) as (H1 & H2 & _). rewrite Q in *. auto.
Qed.
(** Proved: as long as there are only gets, sets, rollbacks to a time and transactions that return without committing, what a report says stays, except that keys
    reported as missing may get a value *)
Definition keeps_entries (d d' : dict pyval) : Prop := forall k, (dget k d <> None -> dget k d' <> None) /\ (pget k d <> VNone -> dget k d' = dget k d).
Inductive calm_use (L : lang) (fuel : nat) : list use -> session -> session -> Prop :=
| cu_none ss : calm_use L fuel [] ss ss
| cu_step x l ss ss' : (match x with
    | UExecute g t => t_auto t = false /\ exists out s', execute L fuel g t (ss_mach ss) = (Ok out, s')
    | UGet _ | USet _ _ | URollbackTo _ => True
    | _ => False end) -> calm_use L fuel l (use_step L fuel x ss) ss' -> calm_use L fuel (x :: l) ss ss'.
Lemma kept_D v v' : D v v' -> keeps_entries (dv_reads v) (dv_reads v').
Proof.
  intros H k. split; [apply present_later; exact H|]. intros N. destruct (d_rec _ _ H k) as [E|(E & _)]; [exact E|]. destruct (pget k (dv_reads v)); try discriminate E. congruence.
Qed.
Lemma kept_refl d : keeps_entries d d. Proof. intros k. split; auto. Qed.
Lemma kept_trans a b c : keeps_entries a b -> keeps_entries b c -> keeps_entries a c.
Proof.
  intros H1 H2 k. destruct (H1 k) as [A1 A2], (H2 k) as [B1 B2]. split; [auto|]. intros N. specialize (A2 N). rewrite B2; [exact A2|]. unfold pget in *. rewrite A2. exact N.
Qed.
Theorem C109_calm_partial L fuel l ss ss' rp : calm_use L fuel l ss ss' -> keeps_entries (seen_reads ss rp) (seen_reads ss' rp).
Proof.
  induction 1 as [ss|x l ss ss' HX H IH]; [apply kept_refl|]. eapply kept_trans; [|exact IH]. clear IH H l ss'.
  assert (HG : ss_gone (use_step L fuel x ss) = ss_gone ss) by (destruct x; try contradiction HX; reflexivity).
  unfold seen_reads, reads_object. rewrite HG. destruct (nth_error (ss_gone ss) (rp_reads rp)) as [d|]; [apply kept_refl|]. clear HG.
  destruct x; try contradiction HX; cbn [use_step on_mach ss_mach].
  - destruct HX as (A & out & s' & E). rewrite E. cbn [snd].
    assert (Q : o_reads out = dv_reads (s_drv s')). { apply execute_inv in E as (_ & r & s1 & w & s3 & _ & _ & _ & -> & ->). reflexivity. }
    destruct (C93_reads_partial _ _ _ _ _ _ _ A E) as (_ & _ & H3). rewrite Q in H3. intros k. destruct (H3 k) as [K|(K & y & K1 & _)].
    + rewrite K. auto.
    + split; [rewrite K1; discriminate|]. intros N. congruence.
  - apply kept_D. unfold on_w, on_drv. fold (s_drv (ss_mach ss)). destruct (ro_get k (s_drv (ss_mach ss))) as (d & HD). pose proof (rg_get k (s_drv (ss_mach ss))) as HGr. unfold s_drv in *. destruct (get k (w_drv (s_w (ss_mach ss)))) as [r v]. cbn [snd] in *. subst v. apply D_reads, HGr.
  - apply kept_D. unfold on_w. destruct (set_D k v false (s_w (ss_mach ss))) as [HD _]. destruct (set k v false (s_w (ss_mach ss))) as [r w]. exact HD.
  - apply kept_refl.
Qed.

(** ** Instances of C109 *)
(** A report exists, and shows x = 0; the next transaction is one of the quiet ones; the commit empties the report. *)
Notation first_s := (mkSess (reads_start x0) []).
Lemma reported_ok t s gone : o_status (out_of t s) = 0%Z -> reported reads_lang 10 cfg0 t (mkSess s gone) = Some (mkRep (out_of t s) (List.length gone)).
Proof. intros H. unfold reported. cbn [ss_mach]. rewrite (out_of_ok t s H). reflexivity. Qed.
Example C109_example : exists rp, reported reads_lang 10 cfg0 (tx "r") first_s = Some rp /\ rp_reads rp = current first_s /\
  dget (u "con_m.x") (o_reads (rp_output rp)) = Some (VInt 0) /\ o_status (rp_output rp) = 0%Z.
Proof.
  exists (mkRep (out_of (tx "r") (reads_start x0)) 0). split; [apply (reported_ok (tx "r") (reads_start x0) []); vm_compute; reflexivity|].
  split; [reflexivity|]. split; vm_compute; reflexivity.
Qed.
Example C109_commit_example : is_ok (fst (commit (s_drv (snd (execute reads_lang 10 cfg0 (tx "r") (reads_start x0)))))) = true /\
  dv_reads (s_drv (snd (execute reads_lang 10 cfg0 (tx "r") (reads_start x0)))) <> [].
Proof. split; [vm_compute; reflexivity|]. intros H. assert (X : pget (u "con_m.x") (dv_reads (s_drv (snd (execute reads_lang 10 cfg0 (tx "r") (reads_start x0))))) = VInt 0) by (vm_compute; reflexivity). rewrite H in X. discriminate X. Qed.
Lemma quiet_step t s gone : t_auto t = false -> o_status (out_of t s) = 0%Z -> calm_use reads_lang 10 [UExecute cfg0 t] (mkSess s gone) (use_step reads_lang 10 (UExecute cfg0 t) (mkSess s gone)).
Proof.
  intros A H. apply cu_step; [|apply cu_none]. split; [exact A|]. cbn [ss_mach]. pose proof (out_of_ok t s H) as E. destruct (execute reads_lang 10 cfg0 t s) as [r s']. cbn [fst] in E. subst r. eauto.
Qed.
Example C109_calm_example : calm_use reads_lang 10 [UExecute cfg0 (tx "w")] first_s (use_step reads_lang 10 (UExecute cfg0 (tx "w")) first_s).
Proof. apply quiet_step; [reflexivity|vm_compute; reflexivity]. Qed.

(** ** C110 *)
(** Proved: without a float among them, execute does not touch the arguments *)
Theorem C110_no_floats_partial L fuel g t s : (forall k x, ~ In (k, VFloat x) (t_kwargs t)) -> kwargs_after L fuel g t s = t_kwargs t.
Proof.
  intros H. unfold kwargs_after. destruct (refused g t); [reflexivity|]. cbv zeta.
  match goal with |- match ?m with _ => _ end = _ => destruct m as [[x|e] s1]; [|reflexivity] end.
  clear - H. induction (t_kwargs t) as [|[k v] r IH]; [reflexivity|]. cbn [convert_floats].
  assert (E : match v with VFloat x => mapr VDec (cd_of_str x) | _ => Ok v end = Ok v) by (destruct v; try reflexivity; exfalso; eapply H; left; reflexivity).
  rewrite E. specialize (IH (fun k x HI => H k x (or_intror HI))). destruct (convert_floats r) as [x r']. cbn [snd] in *. rewrite IH. reflexivity.
Qed.
(** Proved: nothing but floats is ever changed, and a float only into the decimal of its text *)
Definition same_or_decimal (a b : pystr * pyval) : Prop := fst a = fst b /\ (snd a = snd b \/ exists x d, snd a = VFloat x /\ cd_of_str x = Ok d /\ snd b = VDec d).
Lemma soc_refl kw : Forall2 same_or_decimal kw kw. Proof. induction kw; constructor; [split; auto|assumption]. Qed.
Lemma convert_soc kw : Forall2 same_or_decimal kw (snd (convert_floats kw)).
Proof.
  induction kw as [|[k v] r IH]; [constructor|]. cbn [convert_floats].
  destruct (match v with VFloat x => mapr VDec (cd_of_str x) | _ => Ok v end) as [y|e] eqn:E; [|apply soc_refl].
  destruct (convert_floats r) as [x r']. cbn [snd] in *. constructor; [|exact IH]. split; [reflexivity|]. cbn [snd].
  destruct v; try (left; congruence). right. unfold mapr in E. match type of E with context [cd_of_str ?z] => exists z; destruct (cd_of_str z) as [d|] eqn:C end; cbn in E; [|discriminate E].
  injection E as <-. eauto.
Qed.
Theorem C110_only_floats_partial L fuel g t s : Forall2 same_or_decimal (t_kwargs t) (kwargs_after L fuel g t s).
Proof.
  unfold kwargs_after. destruct (refused g t); [apply soc_refl|]. cbv zeta.
  match goal with |- Forall2 _ _ (match ?m with _ => _ end) => destruct m as [[x|e] s1]; [apply convert_soc|apply soc_refl] end.
Qed.
Definition converted (v : pyval) : result pyval := match v with VFloat x => mapr VDec (cd_of_str x) | _ => Ok v end.
Lemma float_args_cons j v r kw : float_args ((j, v) :: r) = Ok kw -> exists y q, converted v = Ok y /\ float_args r = Ok q /\ kw = (j, y) :: q.
Proof.
  assert (Q : float_args ((j, v) :: r) = do y <- converted v; do ys <- float_args r; Ok ((j, y) :: ys)).
  { unfold converted. destruct v; try reflexivity. unfold float_args at 1. cbn [seqr fst snd]. unfold mapr. destruct (cd_of_str repr); reflexivity. }
  rewrite Q. destruct (converted v) as [y|]; [|discriminate]. cbn. destruct (float_args r) as [q|]; [|discriminate]. intros E. injection E as <-. eauto.
Qed.
Lemma float_args_converted kw : forall l, float_args kw = Ok l -> convert_floats kw = (Ok tt, l).
Proof.
  induction kw as [|[k v] r IH]; intros l E; [injection E as <-; reflexivity|]. apply float_args_cons in E as (y & q & C & F & ->). cbn [convert_floats].
  fold (converted v). rewrite C, (IH _ F). reflexivity.
Qed.
Lemma status_ok L fuel g t s out s' : execute L fuel g t s = (Ok out, s') -> o_status out = 0%Z -> exists kw s1, prepare L fuel g t (began s) = (Ok kw, s1).
Proof.
  intros E H. apply execute_inv in E as (_ & r & s1 & w & s3 & HP & _ & _ & -> & ->). cbn [o_status] in H.
  inversion HP as [e sa Ea X1|kw sa e sb Ea Eb X1|kw sa v sb e sc Ea Eb A' Ec X1|kw sa v sb sc Ea Eb Ec X1]; subst; try discriminate H; eauto.
Qed.
Lemma prepare_kwargs L fuel g t s kw s1 : refused g t = false -> prepare L fuel g t (began s) = (Ok kw, s1) -> float_args (t_kwargs t) = Ok kw /\ kwargs_after L fuel g t s = kw.
Proof.
  intros R E. unfold kwargs_after. rewrite R. cbv zeta. fold (began s). unfold prepare in E. revert E. unfold bind, modify.
  destruct (admission g t (began s)) as [[x|e] sa]; [|discriminate]. destruct (base_context t _) as [[y|e] sb]; [|discriminate].
  destruct (find_function L fuel t sb) as [[z|e] sc]; [|discriminate]. destruct (submission_name t sc) as [[w|e] sd]; [|discriminate].
  unfold lift. intros E. injection E as E <-. split; [exact E|]. rewrite (float_args_converted _ _ E). reflexivity.
Qed.
(** REFUTED: after a transaction that succeeded, every float argument has become a decimal in the caller's dict *)
Theorem C110_float_refuted L fuel g t s out s' k x : execute L fuel g t s = (Ok out, s') -> o_status out = 0%Z -> In (k, VFloat x) (t_kwargs t) ->
  exists d, cd_of_str x = Ok d /\ In (k, VDec d) (kwargs_after L fuel g t s) /\ kwargs_after L fuel g t s <> t_kwargs t.
Proof.
  intros E H HI. pose proof (execute_inv _ _ _ _ _ _ _ E) as HX. destruct (status_ok _ _ _ _ _ _ _ E H) as (kw & s1 & EP).
  assert (R : refused g t = false) by (destruct HX as (R & _); exact R).
  destruct (prepare_kwargs _ _ _ _ _ _ _ R EP) as [HF HK]. rewrite HK. clear - HF HI.
  assert (N : forall k x, ~ In (k, VFloat x) kw).
  { revert kw HF. generalize (t_kwargs t). clear. intros l. induction l as [|[j v] r IH]; intros kw HF; [injection HF as <-; intros ? ? []|].
    apply float_args_cons in HF as (y & q & C & F & ->). intros a b [Q|Q]; [|exact (IH _ F a b Q)]. injection Q as _ ->.
    destruct v; try discriminate C. unfold converted, mapr in C. destruct (cd_of_str repr); discriminate C. }
  assert (I : exists d, cd_of_str x = Ok d /\ In (k, VDec d) kw).
  { clear N. revert kw HF HI. generalize (t_kwargs t). clear. intros l. induction l as [|[j v] r IH]; intros kw HF HI; [destruct HI|].
    apply float_args_cons in HF as (y & q & C & F & ->). destruct HI as [Q|Q].
    - injection Q as -> ->. unfold converted, mapr in C. destruct (cd_of_str x) as [d|]; [|discriminate C]. injection C as <-. exists d. split; [reflexivity|left; reflexivity].
    - destruct (IH _ F Q) as (d & D1 & D2). exists d. split; [exact D1|right; exact D2]. }
  destruct I as (d & C & HD). exists d. split; [exact C|]. split; [exact HD|]. intros ->. exact (N k x HI).
Qed.
Definition float_tx : txn := mkTx (u "bob") (u "con_m") (u "r") [(u "n", VInt 1); (u "amount", VFloat (u "1.5"))] [] false 1000 20 (Some true).
Example C110_example : o_status (out_of float_tx (reads_start x0)) = 0%Z /\ is_ok (fst (execute reads_lang 10 cfg0 float_tx (reads_start x0))) = true /\ kwargs_after reads_lang 10 cfg0 float_tx (reads_start x0) = [(u "n", VInt 1); (u "amount", VDec (mkfd false 15 (-1)))].
Proof. vm_compute. repeat split. Qed.
