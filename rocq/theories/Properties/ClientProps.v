(** * Theorems about client.py: C65, C76-C80 *)
From Verif Require Import Model.Base Model.State Model.Dec Model.Time Model.Value Model.Encoder Model.Hdf5 Model.Runtime Model.Driver Model.Orm Model.Exec Model.Executor Model.Client.
From Verif Require Import Spec.EncSpec Spec.DriverSpec Spec.OrmSpec Spec.ExecSpec Spec.SubmitSpec Spec.ClientSpec.
From Verif Require Import Proofs.BaseFacts Proofs.EncFacts Proofs.DiskFacts Proofs.DriverFacts Proofs.ReachFacts Proofs.SubmitFacts.
From Verif Require Import Properties.DriverProps Properties.OrmProps Properties.Demo.
From Coq Require Import Lia.

(** ** C76: run_private_function *)
Lemma call_cfg L fuel clock sg n f kw env meter now c r c' : call_contract L fuel clock sg n f kw env meter now c = (r, c') -> k_cfg c' = k_cfg c.
Proof.
  unfold call_contract. rewrite bind_eq. cbn [gets]. rewrite bind_eq.
  set (X := (if match env with Some (_ :: _) => false | _ => true end then (_ : st client unit) else _) c).
  assert (HX : exists c1, X = (Ok tt, c1) /\ k_cfg c1 = k_cfg c).
  { unfold X. destruct env as [[|e l]|]; eexists; split; reflexivity. }
  destruct HX as (c1 & -> & H1). rewrite bind_eq. unfold on_m. destruct (execute _ _ _ _ (k_mach c1)) as [[o|e] s].
  - destruct (Z.eqb (o_status o) 1); intros H; injection H as _ <-; exact H1.
  - intros H. injection H as _ <-. exact H1.
Qed.
(** After run_private_function returned, functions whose name starts with '__' are refused again, by every call and without effect on storage. *)
Theorem C76_returned_partial L fuel clock n f sg env kw c v c' : run_private_function L fuel clock n f sg env kw c = (Ok v, c') ->
  forall clock2 sg2 n2 f2 kw2 env2 meter now, startswith f2 (u "__") = true ->
  exists c2, call_contract L fuel clock2 sg2 n2 f2 kw2 env2 meter now c' = (Err EAssertion, c2) /\ forall k, client_reads c2 k = client_reads c' k.
Proof.
  unfold run_private_function. rewrite bind_eq. cbn [gets]. rewrite bind_eq. cbn [modify]. rewrite bind_eq.
  destruct (call_contract _ _ _ _ _ _ _ _ _ _ _) as [[r|e] c1]; [|discriminate]. rewrite bind_eq. cbn [modify ret]. intros H. injection H as _ <-.
  intros clock2 sg2 n2 f2 kw2 env2 meter now HF. unfold call_contract. rewrite bind_eq. cbn [gets]. rewrite bind_eq.
  set (c3 := set_kcfg _ c1). assert (H3 : g_bypass_privates (k_cfg c3) = false) by reflexivity. clearbody c3.
  set (X := (if match env2 with Some (_ :: _) => false | _ => true end then (_ : st client unit) else _) c3).
  assert (HX : exists c4, X = (Ok tt, c4) /\ k_mach c4 = k_mach c3).
  { unfold X. destruct env2 as [[|e l]|]; eexists; split; reflexivity. }
  destruct HX as (c4 & -> & H4). rewrite bind_eq. unfold on_m, execute, refused. rewrite H3. cbn [t_function negb andb]. rewrite HF.
  eexists. split; [reflexivity|]. intros k. unfold client_reads, drv_of. rewrite !get_result, H4. cbn [k_mach set_kmach].
  destruct (s_drv (k_mach c3)) as [] eqn:E. unfold s_drv in *. cbn. rewrite E. reflexivity.
Qed.
(** ... but after it raised (and no other exception than those of the contract is needed) the restriction stays lifted: *)
Theorem C76_raised_refuted L fuel clock n f sg env kw c e c' : run_private_function L fuel clock n f sg env kw c = (Err e, c') -> g_bypass_privates (k_cfg c') = true.
Proof.
  unfold run_private_function. rewrite bind_eq. cbn [gets]. rewrite bind_eq. cbn [modify]. rewrite bind_eq.
  destruct (call_contract _ _ _ _ _ _ _ _ _ _ _) as [[r|e1] c1] eqn:E; [rewrite bind_eq; discriminate|]. intros H. injection H as _ <-.
  apply call_cfg in E. rewrite E. reflexivity.
Qed.
(** con_p has the private functions __fail, which raises, and __pay, which sets con_p.paid *)
Definition priv_mod : modul := mkMod (PRet VNone) None [(u "__fail", mkFunc None (fun _ => PRaise EException)); (u "__pay", mkFunc None (fun _ => put "con_p" "paid" (VInt 1) (PRet (VStr (u "done")))));
  (u "f", mkFunc (Some (u "con_p")) (fun _ => PEnv NOW (fun v => PRet v)))].
Definition priv_lang : lang := demo [(u "p", priv_mod)].
Definition priv_client : client := mkClient (idle_mach (deployed (u "con_p") (u "p") VNone)) (mkCfg false (u "currency") (u "balances") false false) [] (u "sys").
Definition call_p (f : string) (clock : Z) (c : client) : result pyval * client := call_contract priv_lang 10 (VInt clock) (u "eve") (u "con_p") (u f) [] None None None c.
Definition run_p (f : string) (c : client) : result pyval * client := run_private_function priv_lang 10 (VInt 5) (u "con_p") (u f) None None [] c.
Theorem C76_refuted : exists c, fst (call_p "__pay" 5 c) = Err EAssertion /\ fst (run_p "fail" c) = Err EException /\
  fst (call_p "__pay" 5 (snd (run_p "fail" c))) = Ok (VStr (u "done")).
Proof. exists priv_client. repeat split; vm_compute; reflexivity. Qed.
Example C76_example : fst (run_p "__pay" priv_client) = Ok (VStr (u "done")) /\ client_reads (snd (run_p "pay" priv_client)) (u "con_p.paid") = Ok (VInt 1) /\
  fst (call_p "__pay" 5 (snd (run_p "pay" priv_client))) = Err EAssertion.
Proof. repeat split; vm_compute; reflexivity. Qed.

(** ** C77: the time a call sees *)
(** A call through a client whose environment has no time runs as the transaction with the time of the call ... *)
Definition client_tx (sg n f : pystr) (kw env : dict pyval) (meter : option bool) : txn := mkTx sg n f kw env false 1000000 20 meter.
Definition answer (r : result output) : result pyval :=
  match r with Err e => Err e | Ok o => if Z.eqb (o_status o) 1 then match o_result o with Ok _ => Err EType | Err e => Err e end else o_result o end.
Theorem C77_first_call_partial L fuel clock sg n f kw meter c : is_none (pget NOW (k_env c)) = true ->
  let c' := snd (call_contract L fuel clock sg n f kw None meter None c) in
  let run := execute L fuel (k_cfg c) (client_tx sg n f kw (dset NOW clock (k_env c)) meter) (k_mach c) in
  fst (call_contract L fuel clock sg n f kw None meter None c) = answer (fst run) /\ k_mach c' = snd run /\ k_env c' = dset NOW clock (k_env c).
Proof.
  intros H. unfold call_contract. rewrite bind_eq. cbn [gets]. rewrite bind_eq. cbn [modify]. rewrite H. rewrite bind_eq. unfold on_m.
  fold (client_tx sg n f kw (dset NOW clock (k_env c)) meter). cbn [k_mach set_kenv].
  destruct (execute _ _ _ _ (k_mach c)) as [[o|e] s]; cbn [fst snd answer]; [|repeat split; reflexivity]. destruct (Z.eqb (o_status o) 1); repeat split; reflexivity.
Qed.
(** ... and leaves that time in the environment; from then on the clock has no influence on any call. *)
Theorem C77_frozen_refuted L fuel clock clock' sg n f kw meter now c : is_none (pget NOW (k_env c)) = false ->
  call_contract L fuel clock sg n f kw None meter now c = call_contract L fuel clock' sg n f kw None meter now c /\
  pget NOW (k_env (snd (call_contract L fuel clock sg n f kw None meter now c))) = pget NOW (k_env c).
Proof.
  intros H. unfold call_contract. rewrite !bind_eq. cbn [gets]. rewrite !bind_eq. cbn [modify]. rewrite H. rewrite !bind_eq. unfold on_m.
  split; [reflexivity|]. destruct (execute _ _ _ _ _) as [[o|e] s]; [|reflexivity]. destruct (Z.eqb (o_status o) 1); reflexivity.
Qed.
Theorem C77_refuted : exists c, fst (call_p "f" 5 c) = Ok (VInt 5) /\ fst (call_p "f" 99 (snd (call_p "f" 5 c))) = Ok (VInt 5).
Proof. exists priv_client. split; vm_compute; reflexivity. Qed.

(** ** Storage through the client *)
Lemma set_plain k x w w' : set k x false w = (Ok tt, w') -> exists y r, coerce x = Ok y /\ w_drv w' = set_reads r (set_writes (dset k y (dv_writes (w_drv w))) (w_drv w)).
Proof.
  intros H. destruct (set_spec k x false w) as [(y & r & t & HC & _ & _ & E & ->)|(e & r & E & _)]; rewrite H in E; cbn [fst snd] in E; [|discriminate].
  exists y, r. split; [exact HC|]. rewrite E. destruct (w_drv w); reflexivity.
Qed.
Definition entries_of (n code : pystr) (blob : list N) (o t dev : pyval) (ws : dict pyval) : dict pyval :=
  dset (make_key n DEVELOPER_KEY []) dev (dset (make_key n TIME_KEY []) t (dset (make_key n OWNER_KEY []) o (dset (make_key n COMPILED_KEY []) (VBytes blob) (dset (make_key n CODE_KEY []) (VStr code) ws)))).
Lemma set_contract_new compile n code o now dev w w' : find (make_key n CODE_KEY []) (w_drv w) = Ok VNone -> set_contract compile n code o now dev w = (Ok tt, w') ->
  exists blob o' t' dev' r, compile code = Ok blob /\ coerce o = Ok o' /\ coerce now = Ok t' /\ coerce dev = Ok dev' /\
    w_drv w' = set_reads r (set_writes (entries_of n code blob o' t' dev' (dv_writes (w_drv w))) (w_drv w)).
Proof.
  intros HF H. unfold set_contract in H. rewrite bind_eq in H. unfold on_drv in H. unfold get_contract, get_var in H.
  rewrite <- get_result in HF. destruct (ro_get (make_key n CODE_KEY []) (w_drv w)) as (x0 & HR).
  destruct (get (make_key n CODE_KEY []) (w_drv w)) as [[c|e] v1]; cbn [fst snd] in *; [|discriminate]. subst v1. injection HF as ->. cbn [is_none] in H.
  rewrite bind_eq in H. unfold lift in H. destruct (compile code) as [blob|e]; [|discriminate].
  unfold set_var in H. set (w1 := mkW _ (w_rt w)) in H. assert (E1 : w_drv w1 = set_reads x0 (w_drv w)) by reflexivity. clearbody w1.
  rewrite bind_eq in H. destruct (set _ (VStr code) false w1) as [[[]|?] w2] eqn:S1; [|discriminate]. apply set_plain in S1 as (y1 & r1 & C1 & E2). injection C1 as <-.
  rewrite bind_eq in H. destruct (set _ (VBytes blob) false w2) as [[[]|?] w3] eqn:S2; [|discriminate]. apply set_plain in S2 as (y2 & r2 & C2 & E3). injection C2 as <-.
  rewrite bind_eq in H. destruct (set _ o false w3) as [[[]|?] w4] eqn:S3; [|discriminate]. apply set_plain in S3 as (y3 & r3 & C3 & E4).
  rewrite bind_eq in H. destruct (set _ now false w4) as [[[]|?] w5] eqn:S4; [|discriminate]. apply set_plain in S4 as (y4 & r4 & C4 & E5).
  apply set_plain in H as (y5 & r5 & C5 & E6). exists blob, y3, y4, y5, r5. repeat (split; [assumption || reflexivity|]).
  rewrite E6, E5, E4, E3, E2, E1. destruct (w_drv w); reflexivity.
Qed.
Lemma set_contract_old compile n code o now dev w x : find (make_key n CODE_KEY []) (w_drv w) = Ok x -> x <> VNone ->
  exists r, set_contract compile n code o now dev w = (Ok tt, mkW (set_reads r (w_drv w)) (w_rt w)).
Proof.
  intros HF HN. unfold set_contract. rewrite bind_eq. unfold on_drv, get_contract, get_var.
  rewrite <- get_result in HF. destruct (ro_get (make_key n CODE_KEY []) (w_drv w)) as (x0 & HR).
  destruct (get (make_key n CODE_KEY []) (w_drv w)) as [[c|e] v1]; cbn [fst snd] in *; [|discriminate]. subst v1. injection HF as ->.
  exists x0. destruct x; try reflexivity. congruence.
Qed.

(** ** C65 *)
(** Deleting: what delete_contract lists is removed from the pending writes, the cache and the disk *)
Definition CODE := make_key SUBMISSION CODE_KEY [].
Lemma kd_mach {A} (m : st driver A) c : on_kd m c = (fst (m (drv_of c)), set_kmach (set_w (mkW (snd (m (drv_of c))) (s_rt (k_mach c))) (k_mach c)) c).
Proof. unfold on_kd, on_m, on_w, on_drv, drv_of, s_drv, s_rt. destruct (m (w_drv (s_w (k_mach c)))); reflexivity. Qed.
(** When nothing of the submission contract is listed by keys('submission'), as right after a commit, the old code stays. *)
Theorem C65_not_listed_refuted L code do_commit c old c' :
  dv_writes (drv_of c) = [] -> dv_cache (drv_of c) = [] -> client_reads c CODE = Ok (VStr old) -> iter_from_disk SUBMISSION (dv_disk (drv_of c)) = Ok [] -> set_order (l_ord L) ->
  set_submission_contract L code do_commit c = (Ok tt, c') -> client_reads c' CODE = Ok (VStr old).
Proof.
  intros HW HC HR HI HO H.
  assert (HK : forall v, dv_writes v = [] -> dv_cache v = [] -> dv_disk v = dv_disk (drv_of c) -> delete_contract (l_ord L) SUBMISSION v = (Ok tt, v)).
  { intros v V1 V2 V3. unfold delete_contract, keys. rewrite bind_eq. unfold items. rewrite bind_eq. rewrite bind_eq. cbn [gets]. rewrite bind_eq. rewrite V1, V2, V3, HI. cbn [lift live filter dupdate fold_left].
    destruct (l_ord L []) as [|k l] eqn:E; [reflexivity|]. exfalso. apply (proj1 (HO [] k)). rewrite E. left. reflexivity. }
  unfold client_reads in *. rewrite get_result in *.
  unfold set_submission_contract in H. rewrite bind_eq in H. rewrite kd_mach in H. destruct (ro_get CODE (drv_of c)) as (x1 & R1).
  destruct (get_contract SUBMISSION (drv_of c)) as [[y|e] v1] eqn:G1; cbn [fst snd] in H; [|discriminate].
  change (get_contract SUBMISSION) with (get CODE) in G1. rewrite G1 in R1. cbn [snd] in R1. subst v1.
  set (c1 := set_kmach _ c) in H. assert (D1 : drv_of c1 = set_reads x1 (drv_of c)) by reflexivity. clearbody c1.
  rewrite bind_eq in H. rewrite kd_mach in H. rewrite HK in H by (rewrite D1; destruct (drv_of c); assumption || reflexivity). cbn [fst snd] in H.
  set (c2 := set_kmach _ c1) in H. assert (D2 : drv_of c2 = set_reads x1 (drv_of c)) by (rewrite <- D1; reflexivity). clearbody c2.
  rewrite bind_eq in H. unfold on_m, on_w in H.
  destruct (set_contract_old (l_marshal L) SUBMISSION code VNone (l_boot L) VNone (s_w (k_mach c2)) (VStr old)) as (x2 & E2).
  { change (find CODE (drv_of c2) = Ok (VStr old)). rewrite D2, find_set_reads. exact HR. } { discriminate. }
  rewrite E2 in H. cbn [fst snd] in H. set (c3 := set_kmach _ c2) in H.
  assert (D3 : drv_of c3 = set_reads x2 (drv_of c2)) by reflexivity. clearbody c3.
  assert (F3 : find CODE (drv_of c3) = Ok (VStr old)) by (rewrite D3, D2, !find_set_reads; exact HR).
  rewrite bind_eq in H.
  assert (HX : exists c4, (if do_commit then on_kd commit else ret tt) c3 = (Ok tt, c4) /\ find CODE (drv_of c4) = Ok (VStr old)).
  { destruct do_commit; [|exists c3; split; [reflexivity|exact F3]]. rewrite kd_mach.
    assert (HM : commit (drv_of c3) = (Ok tt, set_reads [] (set_writes [] (set_cache [] (drv_of c3))))).
    { unfold commit. rewrite bind_eq. cbn [gets]. rewrite bind_eq. unfold on_disk. rewrite D3, D2. destruct (drv_of c) as [? ? ? ? ? ? ? ?]. cbn in *. subst. reflexivity. }
    rewrite HM. eexists. split; [reflexivity|]. change (find CODE (set_reads [] (set_writes [] (set_cache [] (drv_of c3)))) = Ok (VStr old)).
    rewrite D3, D2 in *. destruct (drv_of c) as [? ? ? ? ? ? ? ?]. cbn in *. subst. exact F3. }
  destruct HX as (c4 & EX & F4). rewrite EX, bind_eq, kd_mach in H. destruct (ro_get CODE (drv_of c4)) as (x5 & R5). change (get_contract SUBMISSION) with (get CODE) in H.
  destruct (get CODE (drv_of c4)) as [[y5|e] v5]; cbn [fst snd] in *; [|discriminate]. injection H as <-. subst v5.
  change (find CODE (set_reads x5 (drv_of c4)) = Ok (VStr old)). rewrite find_set_reads. exact F4.
Qed.
(** the client right after it was made with the submission code "a" *)
Definition seeded : client := snd (seed_submission (demo []) (u "a") (mkClient (idle_mach []) (mkCfg false (u "currency") (u "balances") false false) [] (u "sys"))).
Theorem C65_refuted : exists c, client_reads c CODE = Ok (VStr (u "a")) /\ fst (set_submission_contract (demo []) (u "b") true c) = Ok tt /\
  client_reads (snd (set_submission_contract (demo []) (u "b") true c)) CODE = Ok (VStr (u "a")).
Proof. exists seeded. repeat split; vm_compute; reflexivity. Qed.

Lemma dset_keys {V} k' (x : V) d k : In k (dkeys (dset k' x d)) <-> k = k' \/ In k (dkeys d).
Proof.
  induction d as [|[j y] d IH]; cbn [dset dkeys map fst In]; [intuition congruence|].
  destruct (str_eqb_spec k' j) as [E|N]; cbn [map fst In]; [subst; intuition congruence|]. unfold dkeys in IH. rewrite IH. intuition congruence.
Qed.
Lemma dupdate_keys_iff {V} (e d : dict V) k : In k (dkeys (dupdate d e)) <-> In k (dkeys d) \/ In k (dkeys e).
Proof.
  revert d. induction e as [|[j y] e IH]; intros d; [cbn; intuition|].
  change (dupdate d ((j, y) :: e)) with (dupdate (dset j y d) e). rewrite IH, dset_keys. cbn [dkeys map fst In]. intuition congruence.
Qed.
Lemma pget_live k p d : startswith k p = true -> pget k d <> VNone -> In k (dkeys (live p d)).
Proof.
  intros HS HN. unfold pget in HN. destruct (dget k d) as [x|] eqn:E; [|congruence]. apply dget_In in E. unfold live, dkeys.
  apply in_map_iff. exists (k, x). split; [reflexivity|]. apply filter_In. cbn [fst snd]. rewrite HS. split; [exact E|]. destruct x; try reflexivity. congruence.
Qed.
Lemma pget_ddel k k' d : pget k (ddel k' d) = if str_eqb k k' then VNone else pget k d.
Proof. unfold pget. rewrite dget_ddel. destruct (str_eqb k k'); reflexivity. Qed.
(** what delete_contract leaves *)
Definition less (v v' : driver) : Prop :=
  (forall k, pget k (dv_writes v') = VNone \/ pget k (dv_writes v') = pget k (dv_writes v)) /\
  (forall k, pget k (dv_cache v') = VNone \/ pget k (dv_cache v') = pget k (dv_cache v)) /\
  (forall k, In k (dkeys (dv_writes v')) -> In k (dkeys (dv_writes v))) /\
  (forall q, at_value (dattrs (dv_disk v') q) = None \/ at_value (dattrs (dv_disk v') q) = at_value (dattrs (dv_disk v) q)) /\
  (NoDup (dkeys (dv_writes v)) -> NoDup (dkeys (dv_writes v'))) /\
  dv_bypass v' = dv_bypass v.
Lemma less_refl v : less v v. Proof. repeat split; auto. Qed.
Lemma less_trans a b c : less a b -> less b c -> less a c.
Proof.
  intros (A1 & A2 & A3 & A4 & A5 & A6) (B1 & B2 & B3 & B4 & B5 & B6). split; [|split; [|split; [|split; [|split]]]]; auto.
  - intros k. destruct (B1 k) as [E|E]; [left; exact E|]. rewrite E. apply A1.
  - intros k. destruct (B2 k) as [E|E]; [left; exact E|]. rewrite E. apply A2.
  - intros q. destruct (B4 q) as [E|E]; [left; exact E|]. rewrite E. apply A4.
  - congruence.
Qed.
Definition delete_step (k : pystr) : st driver unit :=
  modify (fun v => if is_none (pget k (dv_cache v)) then v else set_cache (ddel k (dv_cache v)) v);;
  modify (fun v => if is_none (pget k (dv_writes v)) then v else set_writes (ddel k (dv_writes v)) v);;
  delete_key_from_disk k.
Lemma nodup_filter {A} (f : A -> bool) (g : A -> pystr) l : NoDup (map g l) -> NoDup (map g (filter f l)).
Proof.
  induction l as [|a l IH]; cbn [map filter]; [auto|]. intros H. inversion H as [|? ? H1 H2]; subst. destruct (f a); cbn [map]; [|auto]. constructor; [|auto].
  intros HI. apply H1. apply in_map_iff in HI as (b & E & HI). apply filter_In in HI as [HI _]. rewrite <- E. apply in_map, HI.
Qed.
Lemma delete_step_spec k v v' : delete_step k v = (Ok tt, v') -> less v v' /\ pget k (dv_writes v') = VNone /\ pget k (dv_cache v') = VNone.
Proof.
  unfold delete_step. rewrite bind_eq. cbn [modify]. rewrite bind_eq. cbn [modify].
  set (v1 := if is_none (pget k (dv_cache v)) then _ else _). set (v2 := if is_none (pget k (dv_writes v1)) then _ else _).
  assert (H1 : less v v1 /\ pget k (dv_cache v1) = VNone).
  { unfold v1. destruct (pget k (dv_cache v)) eqn:E; try (cbn [is_none]; split; [apply less_refl|exact E]); cbn [is_none];
    (split; [|cbn [set_cache dv_cache]; rewrite pget_ddel, str_eqb_refl; reflexivity]; split; [right; reflexivity|]; split; [|repeat split; auto];
     intros j; cbn [set_cache dv_cache]; rewrite pget_ddel; destruct (str_eqb j k); [left|right]; reflexivity). }
  assert (H2 : less v1 v2 /\ pget k (dv_writes v2) = VNone /\ dv_cache v2 = dv_cache v1).
  { unfold v2. clearbody v1. destruct (pget k (dv_writes v1)) eqn:E; try (cbn [is_none]; split; [apply less_refl|split; [exact E|reflexivity]]); cbn [is_none];
    (split; [|split; [cbn [set_writes dv_writes]; rewrite pget_ddel, str_eqb_refl; reflexivity|reflexivity]]; split; [|split; [right; reflexivity|split; [|split; [right; reflexivity|split; [|reflexivity]]]]];
     [ intros j; cbn [set_writes dv_writes]; rewrite pget_ddel; destruct (str_eqb j k); [left|right]; reflexivity
     | intros j; cbn [set_writes dv_writes]; unfold dkeys, ddel; intros HI; apply in_map_iff in HI as (kv & EB & HI); apply filter_In in HI as [HI _]; subst j; apply in_map, HI
     | apply nodup_filter ]). }
  clearbody v1 v2. destruct H1 as [L1 N1], H2 as (L2 & N2 & C2). intros H.
  assert (L3 : less v2 v' /\ dv_writes v' = dv_writes v2 /\ dv_cache v' = dv_cache v2).
  { unfold delete_key_from_disk in H. destruct (parse_key k) as [fn g]. destruct (Nat.ltb (List.length fn) 255); [|injection H as <-; split; [apply less_refl|auto]].
    unfold on_disk in H. destruct (h5_delete fn g (dv_disk v2)) as [[[]|e] d'] eqn:ED; [|discriminate]. injection H as <-.
    split; [|split; reflexivity]. split; [right; reflexivity|]. split; [right; reflexivity|]. split; [auto|]. split; [|split; [auto|reflexivity]].
    intros q. cbn [set_disk dv_disk]. destruct (h5_delete_inv _ _ _ _ _ ED) as [(_ & HN & HG)|(HX & HE)]; [|congruence].
    destruct (h5_delete_ok fn g (dv_disk v2) HN HG) as (d2 & E2 & HQ). rewrite ED in E2. injection E2 as <-. rewrite HQ. destruct (_ && _)%bool; [left|right]; reflexivity. }
  destruct L3 as (L3 & W3 & C3). split; [eapply less_trans; [exact L1|]; eapply less_trans; [exact L2|exact L3]|]. rewrite W3, C3, C2. auto.
Qed.
Lemma delete_contract_spec ord n v v' : set_order ord -> delete_contract ord n v = (Ok tt, v') ->
  less v v' /\ forall k, startswith k n = true -> pget k (dv_writes v') = VNone /\ pget k (dv_cache v') = VNone.
Proof.
  intros HO. unfold delete_contract. rewrite bind_eq. unfold keys. rewrite bind_eq. pose proof (ro_items ord n v) as (x & HR).
  destruct (items ord n v) as [[i|e] v1] eqn:EI; cbn [snd] in HR; [|discriminate]. cbn [ret]. change (foreach _ (dkeys i)) with (foreach delete_step (dkeys i)).
  assert (HI : forall k, startswith k n = true -> pget k (dv_writes v) <> VNone \/ pget k (dv_cache v) <> VNone -> In k (dkeys i)).
  { intros k HS HN. unfold items in EI. rewrite bind_eq in EI. cbn [gets] in EI. rewrite bind_eq in EI. unfold lift in EI. destruct (iter_from_disk n (dv_disk v)) as [db|]; [|discriminate].
    rewrite bind_eq in EI. destruct (mapm _ _ v) as [[ex|] v2]; [|discriminate]. injection EI as <- _. rewrite dupdate_keys_iff. left. rewrite dupdate_keys_iff.
    destruct HN as [HN|HN]; [left; rewrite dupdate_keys_iff|]; right; apply pget_live; assumption. }
  assert (L0 : less v v1) by (subst v1; repeat split; auto).
  assert (W0 : forall k, startswith k n = true -> In k (dkeys i) \/ (pget k (dv_writes v1) = VNone /\ pget k (dv_cache v1) = VNone)).
  { intros k HS. subst v1. cbn [set_reads dv_writes dv_cache]. destruct (pget k (dv_writes v)) eqn:E1; try (left; apply HI; [exact HS|left; congruence]).
    destruct (pget k (dv_cache v)) eqn:E2; try (left; apply HI; [exact HS|right; congruence]). auto. }
  clear EI HI HR. revert v1 L0 W0. induction (dkeys i) as [|k l IH]; intros v1 L0 W0 H; cbn [foreach] in H.
  - injection H as <-. split; [exact L0|]. intros k HS. destruct (W0 k HS) as [[]|]; assumption.
  - rewrite bind_eq in H. destruct (delete_step k v1) as [[[]|e] v2] eqn:E; [|discriminate]. apply delete_step_spec in E as (L1 & N1 & N2).
    apply (IH v2); [eapply less_trans; eassumption| |exact H]. intros j HS. destruct (W0 j HS) as [[EE|]|[P1 P2]]; [right; subst j; auto|left; assumption|].
    right. destruct L1 as (Q1 & Q2 & _). destruct (Q1 j) as [E1|E1], (Q2 j) as [E2|E2]; rewrite E1, E2; auto.
Qed.
Lemma code_entry code blob o t dev ws : dget CODE (entries_of SUBMISSION code blob o t dev ws) = Some (VStr code).
Proof. unfold entries_of. rewrite !dget_dset. vm_compute. reflexivity. Qed.
Lemma entries_keys n code blob o t dev ws k : In k (dkeys (entries_of n code blob o t dev ws)) -> In k (contract_entries n) \/ In k (dkeys ws).
Proof.
  unfold entries_of. rewrite !dset_keys. intros [E|[E|[E|[E|[E|H]]]]]; [left..|right; exact H]; rewrite E; apply entry_keys; cbn [In]; tauto.
Qed.
Lemma entries_nodup n code blob o t dev ws : NoDup (dkeys ws) -> NoDup (dkeys (entries_of n code blob o t dev ws)).
Proof. intros H. unfold entries_of. repeat apply NoDup_dset. exact H. Qed.
Lemma text_stored code : text_ok code -> stored_form (VStr code) = Ok (VStr code).
Proof. intros H. destruct (encode_decode (VStr code) H) as (t & w & E & D & S). unfold stored_form. rewrite E. cbn [bindr]. rewrite D. inversion S; reflexivity. Qed.
(** As long as no code of the submission contract is on disk, it is replaced, whatever is pending or cached. *)
Theorem C65_uncommitted_partial L code do_commit c c' :
  dv_bypass (drv_of c) = false -> set_order (l_ord L) -> fresh_read (dv_disk (drv_of c)) CODE = Ok VNone ->
  (do_commit = true -> NoDup (dkeys (dv_writes (drv_of c))) /\ unaliased [CODE] (drv_of c) /\ text_ok code) ->
  set_submission_contract L code do_commit c = (Ok tt, c') ->
  client_reads c' CODE = Ok (VStr code) /\ (do_commit = true -> fresh_read (dv_disk (drv_of c')) CODE = Ok (VStr code)).
Proof.
  intros HB HO HD HC H. unfold client_reads. rewrite get_result.
  unfold set_submission_contract in H. rewrite bind_eq in H. rewrite kd_mach in H. destruct (ro_get CODE (drv_of c)) as (x1 & R1).
  destruct (get_contract SUBMISSION (drv_of c)) as [[y|e] v1] eqn:G1; cbn [fst snd] in H; [|discriminate].
  change (get_contract SUBMISSION) with (get CODE) in G1. rewrite G1 in R1. cbn [snd] in R1. subst v1.
  set (c1 := set_kmach _ c) in H. assert (D1 : drv_of c1 = set_reads x1 (drv_of c)) by reflexivity. clearbody c1.
  rewrite bind_eq in H. rewrite kd_mach in H. destruct (delete_contract (l_ord L) SUBMISSION (drv_of c1)) as [[[]|e] v2] eqn:E2; cbn [fst snd] in H; [|discriminate].
  apply delete_contract_spec in E2 as [L2 N2]; [|exact HO]. rewrite D1 in L2.
  set (c2 := set_kmach _ c1) in H. assert (D2 : drv_of c2 = v2) by reflexivity. clearbody c2.
  destruct L2 as (_ & _ & K2 & Q2 & U2 & B2). cbn [set_reads dv_writes dv_disk dv_bypass] in K2, Q2, U2, B2.
  assert (KO : key_ok CODE) by (vm_compute; discriminate).
  assert (F2 : find CODE (drv_of c2) = Ok VNone).
  { rewrite D2. unfold find. rewrite B2, HB. destruct (N2 CODE) as [-> ->]; [reflexivity|]. cbn [is_none negb]. rewrite value_from_disk_attrs by exact KO.
    destruct (Q2 (place_of CODE)) as [E|E]; rewrite E; [reflexivity|]. rewrite <- value_from_disk_attrs, <- fresh_read_value by exact KO. exact HD. }
  rewrite bind_eq in H. unfold on_m, on_w in H. destruct (set_contract _ _ _ _ _ _ (s_w (k_mach c2))) as [[[]|e] w3] eqn:E3; [|discriminate].
  apply set_contract_new in E3; [|exact F2]. destruct E3 as (blob & o' & t' & dev' & r3 & _ & _ & _ & _ & E3). change (w_drv (s_w (k_mach c2))) with (drv_of c2) in E3.
  set (c3 := set_kmach _ c2) in H. assert (D3 : drv_of c3 = w_drv w3) by reflexivity. clearbody c3. rewrite E3, D2 in D3.
  assert (F3 : find CODE (drv_of c3) = Ok (VStr code)) by (rewrite D3, find_set_reads; apply find_pending; [cbn; congruence|apply code_entry|discriminate]).
  rewrite bind_eq in H.
  assert (HX : forall c4, (if do_commit then on_kd commit else ret tt) c3 = (Ok tt, c4) ->
     find CODE (drv_of c4) = Ok (VStr code) /\ (do_commit = true -> fresh_read (dv_disk (drv_of c4)) CODE = Ok (VStr code))).
  { intros c4. destruct do_commit; [|intros X; injection X as <-; split; [exact F3|discriminate]].
    destruct (HC eq_refl) as (HN & HU & HT). rewrite kd_mach. destruct (commit (drv_of c3)) as [[[]|e] v4] eqn:E4; cbn [fst snd]; [|discriminate]. intros X; injection X as <-.
    assert (FR : fresh_read (dv_disk v4) CODE = Ok (VStr code)).
    { rewrite (C03_separate_keys (drv_of c3) v4 CODE); [|rewrite D3; apply entries_nodup; auto|exact E4|exact KO|].
      - rewrite D3. cbn [set_reads set_writes dv_writes]. rewrite code_entry. apply text_stored, HT.
      - rewrite D3. cbn [set_reads set_writes dv_writes]. intros k' HI HS. apply entries_keys in HI as [HI|HI]; [|apply (HU CODE k'); [left; reflexivity|auto|exact HS]].
        revert HS. destruct HI as [<-|[<-|[<-|[<-|[<-|[]]]]]]; [reflexivity|..]; vm_compute; discriminate. }
    split; [|intros _; exact FR]. destruct (C03_commit_durable _ _ E4) as (_ & _ & H4). change (find CODE v4 = Ok (VStr code)). rewrite <- get_result, H4; [exact FR|]. rewrite D3. cbn. congruence. }
  destruct ((if do_commit then on_kd commit else ret tt) c3) as [[[]|e] c4]; [|discriminate]. destruct (HX c4 eq_refl) as [F4 F5].
  rewrite bind_eq, kd_mach in H. destruct (ro_get CODE (drv_of c4)) as (x5 & R5). change (get_contract SUBMISSION) with (get CODE) in H.
  destruct (get CODE (drv_of c4)) as [[y5|e] v5]; cbn [fst snd] in *; [|discriminate]. injection H as <-. subst v5. split; [|exact F5].
  change (find CODE (set_reads x5 (drv_of c4)) = Ok (VStr code)). rewrite find_set_reads. exact F4.
Qed.
Example C65_example : exists c, client_reads c CODE = Ok (VStr (u "a")) /\ dv_bypass (drv_of c) = false /\ fresh_read (dv_disk (drv_of c)) CODE = Ok VNone /\
  NoDup (dkeys (dv_writes (drv_of c))) /\ unaliased [CODE] (drv_of c) /\ text_ok (u "b") /\ fst (set_submission_contract (demo []) (u "b") true c) = Ok tt.
Proof.
  exists (mkClient (idle_mach (deployed SUBMISSION (u "a") VNone)) (mkCfg false (u "currency") (u "balances") false false) [] (u "sys")).
  repeat split; try (vm_compute; reflexivity).
  - vm_compute. repeat constructor; cbn [In]; intuition discriminate.
  - intros k k' [<-|[]] [<-|[<-|[]]]; [reflexivity|vm_compute; discriminate].
  - intros H; vm_compute in H; discriminate H.
Qed.

(** ** C78: quick_write and quick_read *)
Lemma dotted_key_ok a r : r <> [] -> key_ok (a ++ DOT :: r).
Proof.
  intros Hr. unfold key_ok, parse_key. change (ch ".") with DOT. destruct (split1 DOT (a ++ DOT :: r)) as [[p q]|] eqn:E.
  - apply split1_Some in E as (E & HN). cbn [snd]. intros HB.
    assert (q = []) by (destruct q; [reflexivity|]; cbn in HB; destruct (N.eqb _ _); discriminate). subst q.
    destruct (exists_last Hr) as (r' & z & ->). change (a ++ DOT :: r' ++ [z]) with (a ++ (DOT :: r') ++ [z]) in E. rewrite app_assoc in E. apply app_inj_tail in E as [E _].
    apply HN. rewrite <- E. apply in_or_app. right. left. reflexivity.
  - apply split1_None in E. exfalso. apply E, in_or_app. right. left. reflexivity.
Qed.
Lemma made_key_ok c v args : v <> [] -> key_ok (make_key c v args).
Proof.
  intros Hv. unfold make_key. destruct args as [|x l].
  - apply dotted_key_ok, Hv.
  - assert (H : exists t, join (u ":") ((c ++ u "." ++ v) :: x :: l) = c ++ DOT :: (v ++ t)).
    { cbn [join]. eexists. rewrite <- !app_assoc. cbn [app u]. reflexivity. }
    destruct H as (t & ->). apply dotted_key_ok. destruct v; [congruence|discriminate].
Qed.
(** quick_write(variable, args, value) commits; quick_read and a new Driver then give the stored form of the value (decimals as such), unless another pending write goes to the same place. *)
Theorem C78_quick_write_partial contract variable args value c c' :
  variable <> [] -> NoDup (dkeys (dv_writes (drv_of c))) -> unaliased [make_key contract variable args] (drv_of c) ->
  quick_write contract variable args value c = (Ok tt, c') ->
  exists y, coerce value = Ok y /\ fst (quick_read contract variable args c') = stored_form y /\ fresh_read (dv_disk (drv_of c')) (make_key contract variable args) = stored_form y.
Proof.
  intros HV HN HU H. unfold quick_write in H. rewrite bind_eq in H. unfold on_m at 1, on_w at 1 in H. set (k := make_key contract variable args) in *.
  destruct (set k value false (s_w (k_mach c))) as [[[]|e] w1] eqn:E1; [|discriminate]. apply set_plain in E1 as (y & r & HC & E1).
  set (c1 := set_kmach _ c) in H. assert (D1 : drv_of c1 = w_drv w1) by reflexivity. clearbody c1. rewrite E1 in D1. change (w_drv (s_w (k_mach c))) with (drv_of c) in D1.
  rewrite kd_mach in H. destruct (commit (drv_of c1)) as [[[]|e] v2] eqn:E2; cbn [fst snd] in H; [|discriminate]. injection H as <-.
  assert (HF : fresh_read (dv_disk v2) k = stored_form y).
  { rewrite (C03_separate_keys (drv_of c1) v2 k); [| |exact E2|apply made_key_ok, HV|]; rewrite D1; cbn [set_reads set_writes dv_writes].
    - rewrite dget_dset_same. reflexivity.
    - apply NoDup_dset, HN.
    - intros k' HI HS. apply dset_keys in HI as [HI|HI]; [exact HI|]. apply (HU k k'); [left; reflexivity|exact HI|exact HS]. }
  exists y. split; [exact HC|]. split; [|exact HF]. unfold quick_read. fold k. rewrite kd_mach. cbn [fst]. rewrite get_result. change (find k v2 = stored_form y).
  rewrite <- HF, fresh_read_value. apply commit_inv in E2 as (d' & _ & ->). unfold find. destruct (dv_bypass _); reflexivity.
Qed.
(** ... but everything else that is pending, of every contract, is committed with it: *)
Theorem C78_commits_others_refuted contract variable args value c c' k x :
  NoDup (dkeys (dv_writes (drv_of c))) -> key_ok k -> k <> make_key contract variable args -> dget k (dv_writes (drv_of c)) = Some x -> unaliased [k] (drv_of c) -> same_place k (make_key contract variable args) = false ->
  quick_write contract variable args value c = (Ok tt, c') -> fresh_read (dv_disk (drv_of c')) k = stored_form x.
Proof.
  intros HN HK NE HX HU HS H. unfold quick_write in H. rewrite bind_eq in H. unfold on_m at 1, on_w at 1 in H. set (k0 := make_key contract variable args) in *.
  destruct (set k0 value false (s_w (k_mach c))) as [[[]|e] w1] eqn:E1; [|discriminate]. apply set_plain in E1 as (y & r & HC & E1).
  set (c1 := set_kmach _ c) in H. assert (D1 : drv_of c1 = w_drv w1) by reflexivity. clearbody c1. rewrite E1 in D1. change (w_drv (s_w (k_mach c))) with (drv_of c) in D1.
  rewrite kd_mach in H. destruct (commit (drv_of c1)) as [[[]|e] v2] eqn:E2; cbn [fst snd] in H; [|discriminate]. injection H as <-. change (fresh_read (dv_disk v2) k = stored_form x).
  rewrite (C03_separate_keys (drv_of c1) v2 k); [| |exact E2|exact HK|]; rewrite D1; cbn [set_reads set_writes dv_writes].
  - rewrite dget_dset_other by exact NE. rewrite HX. reflexivity.
  - apply NoDup_dset, HN.
  - intros k' HI HE. apply dset_keys in HI as [HI|HI]; [subst k'; congruence|]. apply (HU k k'); [left; reflexivity|exact HI|exact HE].
Qed.
(** a client with a pending write of another contract *)
Definition busy : client := mkClient (idle_mach [(kA, VInt 7)]) (mkCfg false (u "currency") (u "balances") false false) [] (u "sys").
Definition wrote : result unit * client := quick_write (u "con_b") (u "h") [u "x"] (VFloat (u "1.5")) busy.
Example C78_example : fst wrote = Ok tt /\ unaliased [make_key (u "con_b") (u "h") [u "x"]] (drv_of busy) /\ NoDup (dkeys (dv_writes (drv_of busy))) /\
  fst (quick_read (u "con_b") (u "h") [u "x"] (snd wrote)) = stored_form (VDec (mkfd false 15 (-1))) /\ fresh_read (dv_disk (drv_of (snd wrote))) kA = Ok (VInt 7) /\
  same_place kA (make_key (u "con_b") (u "h") [u "x"]) = false /\ unaliased [kA] (drv_of busy).
Proof.
  split; [vm_compute; reflexivity|]. split; [intros k k' [<-|[]] [<-|[]]; vm_compute; discriminate|]. split; [repeat constructor; intros []|].
  split; [vm_compute; reflexivity|]. split; [vm_compute; reflexivity|]. split; [vm_compute; reflexivity|]. intros k k' [<-|[]] [<-|[]]; reflexivity.
Qed.

(** ** C79: get_contracts *)
Lemma removed_strip n k : List.length k <= n -> removed k (strip_code n k).
Proof.
  revert k. induction n as [|n IH]; intros k H; [destruct k; [constructor|cbn in H; lia]|]. destruct k as [|c k]; cbn [strip_code]; [constructor|].
  destruct (startswith (c :: k) CODE_SUFFIX) eqn:E.
  - apply startswith_spec in E as (r & E). rewrite E. rewrite skipn_app, skipn_all, Nat.sub_diag. cbn [app skipn]. apply rm_code, IH.
    apply (f_equal (@List.length N)) in E. rewrite app_length in E. cbn [List.length] in *. change (List.length CODE_SUFFIX) with 9 in E. lia.
  - apply rm_char; [exact E|]. apply IH. cbn in H. lia.
Qed.
Lemma removed_inv k r : removed k r -> (k = [] /\ r = []) \/ (exists k', k = u ".__code__" ++ k' /\ removed k' r) \/ (exists c k' r', k = c :: k' /\ r = c :: r' /\ startswith k (u ".__code__") = false /\ removed k' r').
Proof. intros H. destruct H as [|k r H|c k r E H]; [left; auto|right; left; eauto|right; right]. exists c, k, r. auto. Qed.
Lemma removed_unique k r r' : removed k r -> removed k r' -> r = r'.
Proof.
  intros H. revert r'. induction H as [|k r H IH|c k r E H IH]; intros r' H'; apply removed_inv in H' as [[X Y]|[(k0 & X & H0)|(c0 & k0 & r0 & X & Y & E0 & H0)]].
  - auto.
  - symmetry in X. apply app_eq_nil in X as [X _]. discriminate X.
  - discriminate X.
  - apply app_eq_nil in X as [X _]. discriminate X.
  - apply app_inv_head in X. subst. auto.
  - rewrite startswith_app in E0. discriminate.
  - discriminate X.
  - rewrite X, startswith_app in E. discriminate.
  - injection X as -> ->. subst. f_equal. auto.
Qed.
Lemma live_In p d k : In k (dkeys (live p d)) <-> startswith k p = true /\ exists x, In (k, x) d /\ x <> VNone.
Proof.
  unfold live, dkeys. rewrite in_map_iff. split.
  - intros ([k' x] & E & HI). cbn [fst] in E. subst k'. apply filter_In in HI as [HI HB]. apply andb_true_iff in HB as [H1 H2]. cbn [fst snd] in *. split; [exact H1|]. exists x. split; [exact HI|]. intros ->. discriminate.
  - intros [HS (x & HI & HN)]. exists (k, x). split; [reflexivity|]. apply filter_In. split; [exact HI|]. cbn [fst snd]. rewrite HS. destruct x; try reflexivity. congruence.
Qed.
(** get_contracts() lists exactly the pending or cached keys that end in '.__code__', with every '.__code__' removed: *)
Theorem C79_listing L c : set_order (l_ord L) -> exists l c', get_contracts L c = (Ok l, c') /\
  (forall n, In n l <-> exists k, listed_live c k /\ endswith k (u ".__code__") = true /\ removed k n) /\ forall k, client_reads c' k = client_reads c k.
Proof.
  intros HO. unfold get_contracts. rewrite bind_eq, kd_mach. unfold keys. rewrite bind_eq. unfold items. rewrite bind_eq. cbn [gets]. rewrite bind_eq.
  assert (HI : iter_from_disk [] (dv_disk (drv_of c)) = Ok []) by reflexivity. rewrite HI. cbn [lift filter]. rewrite bind_eq.
  assert (HN : l_ord L [] = []). { destruct (l_ord L []) as [|k l] eqn:E; [reflexivity|]. exfalso. apply (proj1 (HO [] k)). rewrite E. left. reflexivity. }
  rewrite HN. cbn [mapm ret fst snd]. eexists _, _. split; [reflexivity|]. split.
  - intros n. rewrite in_map_iff. split.
    + intros (k & <- & HI2). apply filter_In in HI2 as [HI2 HE]. exists k. split; [|split; [exact HE|apply removed_strip; reflexivity]].
      change (dupdate (dupdate (dupdate [] (live [] (dv_writes (drv_of c)))) (live [] (dv_cache (drv_of c)))) []) with (dupdate (dupdate [] (live [] (dv_writes (drv_of c)))) (live [] (dv_cache (drv_of c)))) in HI2.
      rewrite !dupdate_keys_iff in HI2. destruct HI2 as [[[]|HI2]|HI2]; apply live_In in HI2 as [_ HI2]; [left|right]; exact HI2.
    + intros (k & HL & HE & HR). exists k. split; [eapply removed_unique; [apply removed_strip; reflexivity|exact HR]|]. apply filter_In. split; [|exact HE].
      change (dupdate (dupdate (dupdate [] (live [] (dv_writes (drv_of c)))) (live [] (dv_cache (drv_of c)))) []) with (dupdate (dupdate [] (live [] (dv_writes (drv_of c)))) (live [] (dv_cache (drv_of c)))).
      rewrite !dupdate_keys_iff. destruct HL as [HL|HL]; [left; right|right]; apply live_In; (split; [reflexivity|exact HL]).
  - intros k. reflexivity.
Qed.
(** A contract whose code is pending or cached is listed under its name, if the name has no dot, as all names have that submit_contract accepts. *)
Theorem C79_pending_partial L c n : set_order (l_ord L) -> ~ In DOT n -> listed_live c (n ++ u ".__code__") -> exists l c', get_contracts L c = (Ok l, c') /\ In n l.
Proof.
  intros HO HD HL. destruct (C79_listing L c HO) as (l & c' & E & H & _). exists l, c'. split; [exact E|]. apply H. exists (n ++ u ".__code__"). split; [exact HL|]. split.
  - unfold endswith. rewrite rev_app_distr. apply startswith_spec. eauto.
  - clear HL E H. induction n as [|x n IH]; cbn [app].
    + change (u ".__code__") with (u ".__code__" ++ []). repeat constructor.
    + apply rm_char; [|apply IH; intros HI; apply HD; right; exact HI]. destruct (startswith (x :: n ++ u ".__code__") (u ".__code__")) eqn:E; [|reflexivity].
      apply startswith_spec in E as (r & E). injection E as E _. exfalso. apply HD. left. exact E.
Qed.
(** Committed contracts are not listed: *)
Theorem C79_committed_refuted L c : set_order (l_ord L) -> dv_writes (drv_of c) = [] -> dv_cache (drv_of c) = [] -> fst (get_contracts L c) = Ok [].
Proof.
  intros HO HW HC. destruct (C79_listing L c HO) as (l & c' & E & H & _). rewrite E. cbn [fst]. f_equal. destruct l as [|n l]; [reflexivity|].
  destruct (proj1 (H n) (or_introl eq_refl)) as (k & [(x & HI & _)|(x & HI & _)] & _); [rewrite HW in HI|rewrite HC in HI]; destruct HI.
Qed.
(** the contract con_a with code 'p' that has a hash entry h['x.__code__'], before and after it is committed *)
Definition shop : client := mkClient (idle_mach (deployed (u "con_a") (u "p") VNone ++ [(u "con_a.h:x.__code__", VInt 1)])) (mkCfg false (u "currency") (u "balances") false false) [] (u "sys").
Theorem C79_refuted : exists c, fst (get_contracts (demo []) c) = Ok [u "con_a"; u "con_a.h:x"] /\ client_reads c (u "con_a.h:x" ++ u ".__code__" ++ u ".__code__") = Ok VNone /\
  fst (get_contracts (demo []) (snd (on_kd commit c))) = Ok [] /\ client_reads (snd (on_kd commit c)) (u "con_a.__code__") = Ok (VStr (u "p")).
Proof. exists shop. repeat split; vm_compute; reflexivity. Qed.
Example C79_example : set_order (l_ord (demo [])) /\ ~ In DOT (u "con_a") /\ listed_live shop (u "con_a" ++ u ".__code__") /\ dv_writes (drv_of (snd (on_kd commit shop))) = [] /\ dv_cache (drv_of (snd (on_kd commit shop))) = [].
Proof.
  split; [intros l k; reflexivity|]. split; [intros H; repeat (destruct H as [H|H]; [vm_compute in H; discriminate H|]); destruct H|]. split; [|split; vm_compute; reflexivity].
  left. exists (VStr (u "p")). split; [left; reflexivity|discriminate].
Qed.

(** ** C80: flush *)
Definition COMPILED := make_key SUBMISSION COMPILED_KEY [].
Definition SUBMITTED := make_key SUBMISSION TIME_KEY [].
(** After flush() nothing is readable but the code, the compiled code and the submission time of the submission contract; everything pending is gone, also the client's driver has no events and deltas. *)
Theorem C80_flush L code c c' : set_order (l_ord L) -> client_flush L code c = (Ok tt, c') ->
  exists blob t, l_marshal L code = Ok blob /\ coerce (l_boot L) = Ok t /\
  client_reads c' CODE = stored_form (VStr code) /\ client_reads c' COMPILED = stored_form (VBytes blob) /\ client_reads c' SUBMITTED = stored_form t /\
  (forall k, key_ok k -> same_place k CODE = false -> same_place k COMPILED = false -> same_place k SUBMITTED = false -> client_reads c' k = Ok VNone) /\
  dv_writes (drv_of c') = [] /\ dv_cache (drv_of c') = [] /\ dv_deltas (drv_of c') = [] /\ dv_events (drv_of c') = [] /\ (forall k, client_reads c' k = fresh_read (dv_disk (drv_of c')) k).
Proof.
  intros HO H. unfold client_flush in H. rewrite bind_eq in H. cbn [modify] in H. set (c0 := set_kmach _ c) in H.
  assert (D0 : drv_of c0 = driver0 (dv_bypass (drv_of c)) []) by reflexivity. clearbody c0. set (b := dv_bypass (drv_of c)) in *. clearbody b.
  unfold set_submission_contract in H. rewrite bind_eq, kd_mach in H. destruct (ro_get CODE (drv_of c0)) as (x1 & R1).
  change (get_contract SUBMISSION) with (get CODE) in H. destruct (get CODE (drv_of c0)) as [[y1|e] v1]; cbn [fst snd] in *; [|discriminate]. subst v1.
  set (c1 := set_kmach _ c0) in H. assert (D1 : drv_of c1 = set_reads x1 (drv_of c0)) by reflexivity. clearbody c1.
  assert (HK : delete_contract (l_ord L) SUBMISSION (drv_of c1) = (Ok tt, drv_of c1)).
  { rewrite D1, D0. unfold delete_contract, keys. rewrite bind_eq. unfold items. rewrite bind_eq. rewrite bind_eq. cbn [gets]. rewrite bind_eq.
    change (iter_from_disk SUBMISSION _) with (Ok (A := list pystr) []). cbn [lift filter].
    destruct (l_ord L []) as [|k l] eqn:E; [reflexivity|]. exfalso. apply (proj1 (HO [] k)). rewrite E. left. reflexivity. }
  rewrite bind_eq, kd_mach, HK in H. cbn [fst snd] in H. set (c2 := set_kmach _ c1) in H. assert (D2 : drv_of c2 = drv_of c1) by reflexivity. clearbody c2.
  rewrite bind_eq in H. unfold on_m, on_w in H. destruct (set_contract _ _ _ _ _ _ (s_w (k_mach c2))) as [[[]|e] w3] eqn:E3; [|discriminate].
  change (w_drv (s_w (k_mach c2))) with (drv_of c2) in *.
  apply set_contract_new in E3.
  2:{ change (find CODE (drv_of c2) = Ok VNone). rewrite D2, D1, D0. unfold find. cbn [driver0 set_reads dv_bypass dv_writes dv_cache]. destruct b; reflexivity. }
  destruct E3 as (blob & o' & t' & dev' & r3 & HM & C1 & C2 & C3 & E3). cbn [coerce] in C1, C3. injection C1 as <-. injection C3 as <-.
  change (w_drv (s_w (k_mach c2))) with (drv_of c2) in E3.
  set (c3 := set_kmach _ c2) in H. assert (D3 : drv_of c3 = w_drv w3) by reflexivity. clearbody c3. rewrite E3, D2, D1, D0 in D3. cbn [driver0 set_reads set_writes dv_writes] in D3.
  rewrite bind_eq, kd_mach in H. destruct (commit (drv_of c3)) as [[[]|e] v4] eqn:E4; cbn [fst snd] in H; [|discriminate].
  set (c4 := set_kmach _ c3) in H. assert (D4 : drv_of c4 = v4) by reflexivity. clearbody c4.
  rewrite bind_eq, kd_mach in H. destruct (ro_get CODE (drv_of c4)) as (x5 & R5). destruct (get CODE (drv_of c4)) as [[y5|e] v5]; cbn [fst snd] in *; [|discriminate]. injection H as <-. subst v5.
  pose proof (C03_commit_durable _ _ E4) as (HR & _). apply commit_inv in E4 as (d4 & _ & E4).
  set (c5 := set_kmach _ c4). assert (D5 : drv_of c5 = set_reads x5 v4) by (rewrite <- D4; reflexivity). clearbody c5.
  assert (HC : forall k, client_reads c5 k = fresh_read (dv_disk v4) k).
  { intros k. unfold client_reads. rewrite get_result, D5, find_set_reads, fresh_read_value, E4. unfold find. destruct (dv_bypass _); reflexivity. }
  assert (HW : dv_writes (drv_of c3) = entries_of SUBMISSION code blob VNone t' VNone []) by (rewrite D3; reflexivity).
  exists blob, t'. split; [exact HM|]. split; [exact C2|]. rewrite !HC, D5.
  assert (Hlast : forall k, last_write k (dv_writes (drv_of c3)) = if same_place k (make_key SUBMISSION DEVELOPER_KEY []) then Some VNone else if same_place k SUBMITTED then Some t' else if same_place k (make_key SUBMISSION OWNER_KEY []) then Some VNone
    else if same_place k COMPILED then Some (VBytes blob) else if same_place k CODE then Some (VStr code) else None).
  { intros k. rewrite HW. change (entries_of SUBMISSION code blob VNone t' VNone []) with [(CODE, VStr code); (COMPILED, VBytes blob); (make_key SUBMISSION OWNER_KEY [], VNone); (SUBMITTED, t'); (make_key SUBMISSION DEVELOPER_KEY [], VNone)].
    cbn [last_write]. destruct (same_place k (make_key SUBMISSION DEVELOPER_KEY [])); [reflexivity|]. destruct (same_place k SUBMITTED); [reflexivity|]. destruct (same_place k (make_key SUBMISSION OWNER_KEY [])); [reflexivity|]. destruct (same_place k COMPILED); reflexivity. }
  split; [|split; [|split; [|split]]].
  - rewrite HR by (vm_compute; discriminate). rewrite Hlast. reflexivity.
  - rewrite HR by (vm_compute; discriminate). rewrite Hlast. reflexivity.
  - rewrite HR by (vm_compute; discriminate). rewrite Hlast. reflexivity.
  - intros k HK2 N1 N2 N3. rewrite HC, HR by exact HK2. rewrite Hlast, N1, N2, N3. destruct (same_place k (make_key SUBMISSION DEVELOPER_KEY [])); [reflexivity|]. destruct (same_place k (make_key SUBMISSION OWNER_KEY [])); [reflexivity|].
    rewrite D3. cbn [dv_disk]. rewrite fresh_read_attrs by exact HK2. cbn [set_reads set_writes driver0 dv_disk]. unfold dattrs, open_r. destruct (name_ok _); reflexivity.
  - rewrite E4, D3. repeat split. intros k. rewrite HC, E4, D3. reflexivity.
Qed.
Definition flushed : result unit * client := client_flush (demo []) (u "new") (snd wrote).
Example C80_example : fst flushed = Ok tt /\ client_reads (snd wrote) kA = Ok (VInt 7) /\ client_reads (snd flushed) kA = Ok VNone /\ client_reads (snd flushed) CODE = Ok (VStr (u "new")).
Proof. repeat split; vm_compute; reflexivity. Qed.
