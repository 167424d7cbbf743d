(** * C50: execution is deterministic *)
From Verif Require Import Model.Base Model.State Model.Dec Model.Time Model.Value Model.Encoder Model.Hdf5 Model.Runtime Model.Driver Model.Orm Model.Exec Model.Executor.
From Verif Require Import Spec.OrmSpec Spec.ExecSpec Spec.DetSpec Proofs.BaseFacts Proofs.DriverFacts Proofs.OrmFacts Proofs.ExecFacts Proofs.ExecRel Proofs.MeterFacts Proofs.TxFacts Proofs.DrvRel Proofs.SimFacts.
From Verif Require Import Properties.DriverProps Properties.OrmProps Properties.Demo Properties.TxProps Properties.CtxProps.

(** On two machines that read the same, whatever is cached, stored or was read before and whatever context the last
    transaction left: the same transaction gives the same report, and leaves machines that read the same.
    Missing from C50: code that lists a Hash, and transactions that commit (see below). *)
Lemma no_listing_ok DE CE L s : all_code no_listing L s -> lang_all (module_all (listed_ok DE CE)) L /\ mods_all (module_all (listed_ok DE CE)) (s_mods s).
Proof.
  intros [[H1 H2] H3]. assert (HE : forall p, each no_listing p -> each (listed_ok DE CE) p).
  { intros p. apply each_imp. intros q. destruct q as [| | |a k| | | | | | |]; cbn; auto. }
  assert (HM : forall md, module_all no_listing md -> module_all (listed_ok DE CE) md).
  { intros md [A B C]. constructor; [apply HE, A|intros; eapply HE, B; eassumption|intros; eapply HE, C; eassumption]. }
  split; [split|]; [intros; eapply HM, H1; eassumption|intros; eapply HM, H2; eassumption|intros n md E; apply HM, (H3 n md E)].
Qed.
Lemma all_listed_ok DE CE L (s : mach) : DE /\ CE -> lang_all (module_all (listed_ok DE CE)) L /\ mods_all (module_all (listed_ok DE CE)) (s_mods s).
Proof.
  intros H. assert (HE : forall p, each (listed_ok DE CE) p) by (induction p; cbn [each]; (split; [cbn; auto|]); auto; try exact I).
  assert (HM : forall md, module_all (listed_ok DE CE) md) by (intros md; constructor; intros; apply HE).
  split; [split|]; intros; try apply HM. intros n md _. apply HM.
Qed.
Theorem C50_deterministic_partial L fuel g t s1 s2 : all_code no_listing L s1 -> t_auto t = false -> alike s1 s2 ->
  let r1 := execute L fuel g t s1 in let r2 := execute L fuel g t s2 in
  same_report (fst r1) (fst r2) /\ alike (snd r1) (snd r2) /\
  (dv_reads (s_drv s1) = dv_reads (s_drv s2) -> reported_reads (fst r1) = reported_reads (fst r2)).
Proof.
  intros HA HT HS. destruct (no_listing_ok False False L s1 HA) as [HL HM]. cbv zeta.
  assert (HF : t_auto t = true -> False) by congruence.
  destruct (execute_sim (dv_reads (s_drv s1) = dv_reads (s_drv s2)) False False L HL fuel g t HF s1 s2 HS HM (fun X => X) (fun X => match X with end) (fun X => match X with end)) as [E1 E2].
  destruct (E2 (or_introl HT)) as (E3 & _ & E4 & _). split; [exact E1|]. split; [exact E3|]. intros HR. apply E4, HR.
Qed.
(** All code and all transactions: what was read before, the block deltas and the leftover context do not matter *)
Theorem C50_same_storage L fuel g t s1 s2 : alike s1 s2 -> dv_disk (s_drv s1) = dv_disk (s_drv s2) -> dv_cache (s_drv s1) = dv_cache (s_drv s2) ->
  let r1 := execute L fuel g t s1 in let r2 := execute L fuel g t s2 in
  same_report (fst r1) (fst r2) /\
  (clean_end t (fst r1) -> alike (snd r1) (snd r2) /\ dv_disk (s_drv (snd r1)) = dv_disk (s_drv (snd r2)) /\ dv_cache (s_drv (snd r1)) = dv_cache (s_drv (snd r2))).
Proof.
  intros HS HD HC. destruct (all_listed_ok True True L s1 (conj I I)) as [HL HM]. cbv zeta.
  destruct (execute_sim False True True L HL fuel g t (fun _ => I) s1 s2 HS HM (fun X => match X with end) (fun _ => HD) (fun _ => HC)) as [E1 E2].
  split; [exact E1|]. intros HE. destruct (E2 HE) as (E3 & _ & _ & E4 & E5). auto.
Qed.
(** Transactions that commit: the cache does not matter if the files are the same *)
Theorem C50_committing_partial L fuel g t s1 s2 : all_code no_listing L s1 -> alike s1 s2 -> dv_disk (s_drv s1) = dv_disk (s_drv s2) ->
  let r1 := execute L fuel g t s1 in let r2 := execute L fuel g t s2 in
  same_report (fst r1) (fst r2) /\ (clean_end t (fst r1) -> alike (snd r1) (snd r2) /\ dv_disk (s_drv (snd r1)) = dv_disk (s_drv (snd r2))).
Proof.
  intros HA HS HD. destruct (no_listing_ok True False L s1 HA) as [HL HM]. cbv zeta.
  destruct (execute_sim False True False L HL fuel g t (fun _ => I) s1 s2 HS HM (fun X => match X with end) (fun _ => HD) (fun X => match X with end)) as [E1 E2].
  split; [exact E1|]. intros HE. destruct (E2 HE) as (E3 & _ & _ & E4 & E5). auto.
Qed.
(** Any number of transactions *)
Theorem C50_history_partial L fuel g ts s1 s2 : all_code no_listing L s1 -> Forall (fun t => t_auto t = false) ts -> alike s1 s2 ->
  Forall2 same_report (fst (executes L fuel g ts s1)) (fst (executes L fuel g ts s2)) /\ alike (snd (executes L fuel g ts s1)) (snd (executes L fuel g ts s2)).
Proof.
  intros HA HT HS. destruct (no_listing_ok False False L s1 HA) as [HL HM]. clear HA. revert s1 s2 HM HS. induction HT as [|t ts HT _ IH]; intros s1 s2 HM HS; [split; [constructor|exact HS]|].
  cbn [executes]. assert (HF : t_auto t = true -> False) by congruence.
  destruct (execute_sim False False False L HL fuel g t HF s1 s2 HS HM (fun X => match X with end) (fun X => match X with end) (fun X => match X with end)) as [E1 E2].
  destruct (E2 (or_introl HT)) as (E3 & E4 & _). destruct (execute L fuel g t s1) as [r1 u1], (execute L fuel g t s2) as [r2 u2]. cbn [fst snd] in *.
  destruct (IH u1 u2 E4 E3) as [F1 F2]. destruct (executes L fuel g ts u1) as [l1 w1], (executes L fuel g ts u2) as [l2 w2]. cbn [fst snd] in *. split; [constructor; assumption|exact F2].
Qed.

(** ** A case: the code of the contract is only cached on one machine and only on disk on the other; other reads and context *)
Definition det_code (p : prog) : dict pyval := deployed (u "con_m") (u "con_m") VNone ++ funded "bob" 100.
Definition saved_disk (ws : dict pyval) : disk := snd (commit_all ws []).
Definition cached_on (ws cached stored : dict pyval) (reads : dict pyval) (base : cstate) : mach :=
  mkS (mkW (set_writes ws (set_reads reads (set_cache cached (driver0 false (saved_disk stored))))) (set_ctx (mkCtx [] base) rt0)) [] [] false [].
Lemma dkeys_pget k (d : dict pyval) : pget k d <> VNone -> In k (dkeys d).
Proof.
  unfold pget. induction d as [|[k' x] d IH]; cbn [dget dkeys map fst In]; [intros X; exfalso; apply X; reflexivity|].
  destruct (str_eqb_spec k k') as [->|N]; [auto|]. intros X. right. apply IH, X.
Qed.
Lemma sound_by v : forallb (fun k => is_ok (settled v k)) (dkeys (dv_writes v) ++ dkeys (dv_reads v)) = true -> sound_reads v.
Proof.
  intros H k Hk. rewrite forallb_forall in H. assert (HI : In k (dkeys (dv_writes v) ++ dkeys (dv_reads v))) by (apply in_app_iff; destruct Hk as [X|X]; [left|right]; apply dkeys_pget, X).
  specialize (H k HI). destruct (settled v k) as [x|e]; [eauto|discriminate].
Qed.
(** every cached value is the stored one *)
Lemma settled_cache ws ws' cached reads reads' stored base base' : forallb (fun kv => match settled (s_drv (cached_on ws' [] stored reads' base')) (fst kv), snd kv with Ok (VInt a), VInt b => Z.eqb a b | Ok (VStr a), VStr b => str_eqb a b | Ok (VBytes a), VBytes b => str_eqb a b | _, _ => false end) cached = true ->
  forall k, settled (s_drv (cached_on ws cached stored reads base)) k = settled (s_drv (cached_on ws' [] stored reads' base')) k.
Proof.
  intros H k. destruct (is_none (pget k cached)) eqn:E.
  - rewrite !settled_find. unfold find, cached_on, s_drv. cbn [s_w w_drv dv_bypass dv_writes dv_cache dv_disk set_writes set_reads set_cache driver0].
    change (pget k []) with VNone. cbn [is_none negb]. rewrite E. reflexivity.
  - assert (HS : settled (s_drv (cached_on ws cached stored reads base)) k = Ok (pget k cached)).
    { rewrite settled_find. unfold find, cached_on, s_drv. cbn [s_w w_drv dv_bypass dv_writes dv_cache dv_disk set_writes set_reads set_cache driver0]. change (pget k []) with VNone. cbn [is_none negb]. rewrite E. reflexivity. }
    rewrite HS. clear HS. rewrite forallb_forall in H. unfold pget in *. destruct (dget k cached) as [x|] eqn:G; [|discriminate E].
    assert (HI : In (k, x) cached) by (apply dget_In; exact G). specialize (H _ HI). cbn [fst snd] in H.
    destruct (settled _ k) as [y|]; [|discriminate H]. destruct y; try discriminate H; destruct x; try discriminate H; f_equal; f_equal;
      first [apply Z.eqb_eq in H; symmetry; exact H | apply str_eqb_eq in H; symmetry; exact H].
Qed.
Lemma cached_alike ws cached stored reads reads' base base' :
  (forall k, settled (s_drv (cached_on ws cached stored reads base)) k = settled (s_drv (cached_on ws [] stored reads' base')) k) ->
  sound_reads (s_drv (cached_on ws cached stored reads base)) -> sound_reads (s_drv (cached_on ws [] stored reads' base')) ->
  alike (cached_on ws cached stored reads base) (cached_on ws [] stored reads' base').
Proof. intros H S1 S2. constructor; try reflexivity. constructor; auto. Qed.
(** increments a counter, and returns its value *)
Definition count_prog : prog := PAct (ActVarGet (var_decl (u "con_m") (u "x") None (VInt 0))) (fun v => put "con_m" "x" (match v with VInt n => VInt (n + 1) | _ => VInt 0 end) (PRet v)).
Definition count_lang : lang := demo [(u "con_m", only_f (u "con_m") count_prog)].
Definition count_stored : dict pyval := deployed (u "con_m") (u "con_m") VNone ++ funded "bob" 100 ++ [(u "con_m.x", VInt 41)].
Definition count_warm : mach := cached_on [(u "con_m.y", VInt 1)] count_stored count_stored [(u "con_m.y", VInt 1)] (mkCs (Some (u "con_z")) (Some (u "eve")) (Some (u "eve")) VNone None VNone).
Definition count_cold : mach := cached_on [(u "con_m.y", VInt 1)] [] count_stored [] base0.
Lemma count_alike : alike count_warm count_cold.
Proof.
  apply cached_alike; [apply settled_cache; vm_compute; reflexivity|apply sound_by; vm_compute; reflexivity|apply sound_by; vm_compute; reflexivity].
Qed.
Example C50_example : all_code no_listing count_lang count_warm /\ alike count_warm count_cold /\ dv_cache (s_drv count_warm) <> dv_cache (s_drv count_cold) /\
  let r1 := fst (execute count_lang 10 cfg0 (call_of "bob" "con_m" "f") count_warm) in let r2 := fst (execute count_lang 10 cfg0 (call_of "bob" "con_m" "f") count_cold) in
  same_report r1 r2 /\ match r1 with Ok o => o_status o = 0%Z /\ o_result o = Ok (VInt 41) /\ dget (u "con_m.x") (o_writes o) = Some (VInt 42) | _ => False end /\ reported_reads r1 <> reported_reads r2.
Proof.
  assert (H : all_code no_listing count_lang count_warm).
  { assert (H : all_code no_listing count_lang (idle_mach [])); [|split; [apply H|intros n md; discriminate]]. apply demo_all; cbn; repeat split. }
  split; [exact H|]. split; [exact count_alike|]. split; [discriminate|]. cbv zeta.
  split; [exact (proj1 (C50_deterministic_partial count_lang 10 cfg0 (call_of "bob" "con_m" "f") count_warm count_cold H eq_refl count_alike))|].
  split; [vm_compute; auto|]. intros E. apply (f_equal (@dkeys pyval)) in E. apply (f_equal (@List.length pystr)) in E.
  assert (N1 : List.length (dkeys (reported_reads (fst (execute count_lang 10 cfg0 (call_of "bob" "con_m" "f") count_warm)))) = 6%nat) by (vm_compute; reflexivity).
  assert (N2 : List.length (dkeys (reported_reads (fst (execute count_lang 10 cfg0 (call_of "bob" "con_m" "f") count_cold)))) = 5%nat) by (vm_compute; reflexivity).
  congruence.
Qed.

(** ** What does depend on more *)
(** Hash.all lists the entries that are pending or cached, and (finding C10) not the stored ones: two nodes with the same storage,
    of which one has read an entry before, answer the same transaction differently. Both runs are successful *)
Definition all_prog : prog := PAct (ActHashAll (hash_decl (u "con_m") (u "h") VNone) []) (fun v => PRet v).
Definition all_lang : lang := demo [(u "con_m", only_f (u "con_m") all_prog)].
Definition all_stored : dict pyval := deployed (u "con_m") (u "con_m") VNone ++ funded "bob" 100 ++ [(u "con_m.h:a", VInt 1); (u "con_m.h:b", VInt 2)].
Definition all_warm : mach := cached_on [] [(u "con_m.h:b", VInt 2)] all_stored [] base0.
Definition all_cold : mach := cached_on [] [] all_stored [] base0.
Definition all_tx := call_of "bob" "con_m" "f".
Theorem C50_refuted : exists L g t s1 s2 o1 o2 s1' s2', t_auto t = false /\ idle s1 /\ idle s2 /\ alike s1 s2 /\ dv_disk (s_drv s1) = dv_disk (s_drv s2) /\
  execute L 10 g t s1 = (Ok o1, s1') /\ execute L 10 g t s2 = (Ok o2, s2') /\ o_status o1 = 0%Z /\ o_status o2 = 0%Z /\
  o_result o1 = Ok (VList [VInt 2]) /\ o_result o2 = Ok (VList []).
Proof.
  set (R1 := execute all_lang 10 cfg0 all_tx all_warm). set (R2 := execute all_lang 10 cfg0 all_tx all_cold).
  exists all_lang, cfg0, all_tx, all_warm, all_cold, (match R1 with (Ok o, _) => o | _ => mkOut 0 (Ok VNone) 0 [] [] [] end), (match R2 with (Ok o, _) => o | _ => mkOut 0 (Ok VNone) 0 [] [] [] end), (snd R1), (snd R2).
  split; [reflexivity|]. split; [constructor; reflexivity|]. split; [constructor; reflexivity|].
  split; [apply cached_alike; [apply settled_cache; vm_compute; reflexivity|apply sound_by; vm_compute; reflexivity|apply sound_by; vm_compute; reflexivity]|].
  split; [reflexivity|]. vm_compute. repeat (split; [reflexivity|]). reflexivity.
Qed.
(** Deleting an entry that is pending only removes it; deleting one that is cached or stored does not (until commit): reading the same is not enough,
    the pending writes have to be the same *)
Definition del_prog : prog := put "con_m" "x" VNone (PAct (ActVarGet (var_decl (u "con_m") (u "x") None VNone)) (fun v => PRet v)).
Definition del_lang : lang := demo [(u "con_m", only_f (u "con_m") del_prog)].
Definition del_stored : dict pyval := deployed (u "con_m") (u "con_m") VNone ++ funded "bob" 100.
Definition del_pending : mach := cached_on [(u "con_m.x", VInt 1)] [] del_stored [] base0.
Definition del_cached : mach := cached_on [] [(u "con_m.x", VInt 1)] del_stored [] base0.
Lemma del_same k : reads_as del_pending k = reads_as del_cached k.
Proof.
  unfold reads_as. rewrite !get_fst. unfold find, del_pending, del_cached, cached_on, s_drv. cbn [s_w w_drv dv_bypass dv_writes dv_cache dv_disk set_writes set_reads set_cache driver0].
  change (pget k []) with VNone. cbn [is_none negb]. reflexivity.
Qed.
Theorem C50_pending_refuted : exists L g t s1 s2 o1 o2 s1' s2', t_auto t = false /\ idle s1 /\ idle s2 /\ (forall k, reads_as s1 k = reads_as s2 k) /\
  execute L 10 g t s1 = (Ok o1, s1') /\ execute L 10 g t s2 = (Ok o2, s2') /\ o_status o1 = 0%Z /\ o_status o2 = 0%Z /\ o_result o1 = Ok VNone /\ o_result o2 = Ok (VInt 1).
Proof.
  set (R1 := execute del_lang 10 cfg0 all_tx del_pending). set (R2 := execute del_lang 10 cfg0 all_tx del_cached).
  exists del_lang, cfg0, all_tx, del_pending, del_cached, (match R1 with (Ok o, _) => o | _ => mkOut 0 (Ok VNone) 0 [] [] [] end), (match R2 with (Ok o, _) => o | _ => mkOut 0 (Ok VNone) 0 [] [] [] end), (snd R1), (snd R2).
  split; [reflexivity|]. split; [constructor; reflexivity|]. split; [constructor; reflexivity|]. split; [exact del_same|].
  vm_compute. repeat (split; [reflexivity|]). reflexivity.
Qed.
Print Assumptions C50_deterministic_partial.
Print Assumptions C50_same_storage.
Print Assumptions C50_committing_partial.
Print Assumptions C50_history_partial.
Print Assumptions C50_refuted.
Print Assumptions C50_pending_refuted.
