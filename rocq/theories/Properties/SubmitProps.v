(** * C61-C64: submitting contracts *)
From Verif Require Import Model.Base Model.State Model.Dec Model.Time Model.Value Model.Encoder Model.Hdf5 Model.Runtime Model.Driver Model.Orm Model.Exec Model.Executor.
From Verif Require Import Spec.EncSpec Spec.OrmSpec Spec.DriverSpec Spec.ExecSpec Spec.SubmitSpec.
From Verif Require Import Proofs.BaseFacts Proofs.ParseFacts Proofs.EncFacts Proofs.EncFacts2 Proofs.DriverFacts Proofs.DiskFacts Proofs.ReachFacts Proofs.OrmFacts Proofs.ExecFacts Proofs.ExecRel Proofs.MeterFacts Proofs.TxFacts Proofs.DrvRel Proofs.EncFacts3 Proofs.SubmitFacts Proofs.CommitFacts.
From Verif Require Import Properties.DriverProps Properties.OrmProps Properties.Demo Properties.TxProps Properties.CtxProps Properties.ExecProps.
From Coq Require Import Lia.
Local Open Scope nat_scope.

(** ** C61 *)
Lemma present_code s c : has_code s c -> present c (s_drv s).
Proof. intros (x & H & HN). exists x. unfold reads_as in H. rewrite get_result in H. split; [exact H|exact HN]. Qed.
(** Full statement: once a contract has code, no later submission changes its entries.
    Proved for every transaction without auto-commit, whatever it answers, and for those entries [K] of the contract (the code
    among them) that no contract code writes by other means than a submission: they read as before. *)
Theorem C61_transaction_partial L fuel g t c K s r s' :
  set_order (l_ord L) -> In (c ++ u ".__code__") K -> (forall k, In k K -> In k (contract_entries c)) ->
  all_code (code_leaves L K) L s -> t_auto t = false -> (metered g t = true -> ~ In (balance_key g t) K) ->
  has_code s c -> execute L fuel g t s = (r, s') ->
  has_code s' c /\ forall k, In k K -> reads_as s' k = reads_as s k.
Proof.
  intros HO HK HE HA A HF HC E. destruct (execute_still L c K HK HE HO fuel g t A HF s r s' HA E) as [HS _].
  assert (HR : forall k, In k K -> reads_as s' k = reads_as s k).
  { intros k Hk. unfold reads_as. rewrite !get_result. apply (still_find _ _ _ _ HS (present_code _ _ HC) k Hk). }
  split; [|exact HR]. destruct HC as (x & H1 & H2). exists x. rewrite (HR _ HK). auto.
Qed.
(** The same through commits: an entry reads as before, or as the stored form of what it was.
    Missing: commits with another pending entry at the same place of the disk ([unaliased], see C61_alias_refuted), a non-empty cache,
    rollback and auto-commit. *)
Record clean (K : list pystr) (s : mach) : Prop := mkClean {
  cl_cache : dv_cache (s_drv s) = []; cl_bypass : dv_bypass (s_drv s) = false;
  cl_nodup : NoDup (dkeys (dv_writes (s_drv s)));
  cl_del : forall k, In k K -> dget k (dv_writes (s_drv s)) = Some VNone -> fresh_read (dv_disk (s_drv s)) k = Ok VNone }.
Lemma find_clean k v : dv_cache v = [] -> dv_bypass v = false -> find k v = match dget k (dv_writes v) with Some x => if is_none x then fresh_read (dv_disk v) k else Ok x | None => fresh_read (dv_disk v) k end.
Proof.
  intros HC HB. unfold find. rewrite HC, HB. rewrite fresh_read_value. unfold pget. cbn [dget]. destruct (dget k (dv_writes v)) as [x|]; [|reflexivity]. destruct x; reflexivity.
Qed.
Theorem C61_history_partial L fuel g (ok : txn -> Prop) c K text s s' :
  set_order (l_ord L) -> In (c ++ u ".__code__") K -> (forall k, In k K -> In k (contract_entries c)) ->
  (forall k, In k K -> key_ok k) ->
  all_code (code_leaves L K) L s -> (forall t, ok t -> metered g t = true -> ~ In (balance_key g t) K) ->
  clean K s -> reads_as s (c ++ u ".__code__") = Ok (VStr text) -> text_ok text ->
  tx_history L fuel g ok K s s' ->
  reads_as s' (c ++ u ".__code__") = Ok (VStr text) /\
  forall k, In k K -> reads_as s' k = reads_as s k \/ exists x, reads_as s k = Ok x /\ reads_as s' k = stored_form x.
Proof.
  intros HO HK HE HUK HA HF HC HT HTX HH.
  pose (V := fun k => match dget k (dv_writes (s_drv s)) with Some x => stored_form x | None => fresh_read (dv_disk (s_drv s)) k end).
  assert (H : all_code (code_leaves L K) L s' /\ dv_cache (s_drv s') = [] /\ dv_bypass (s_drv s') = false /\ NoDup (dkeys (dv_writes (s_drv s'))) /\
    ((forall k, In k K -> dget k (dv_writes (s_drv s')) = dget k (dv_writes (s_drv s)) /\ fresh_read (dv_disk (s_drv s')) k = fresh_read (dv_disk (s_drv s)) k) \/
     (forall k, In k K -> dget k (dv_writes (s_drv s')) = None /\ fresh_read (dv_disk (s_drv s')) k = V k)) /\
    reads_as s' (c ++ u ".__code__") = Ok (VStr text)).
  { assert (ST : stored_form (VStr text) = Ok (VStr text)).
    { destruct (stored_form_same (VStr text)) as (y & H1 & H2); [exact HTX|]. rewrite <- (decode_new_value (VStr text)).
      - rewrite H1. inversion H2; reflexivity.
      - destruct (encode_decode (VStr text) HTX) as (tx & w & Et & _). rewrite Et. discriminate. }
    destruct HC as [C1 C2 C3 C5].
    assert (SPL : forall v, dv_cache v = [] -> dv_bypass v = false -> find (c ++ u ".__code__") v = Ok (VStr text) ->
      dget (c ++ u ".__code__") (dv_writes v) = Some (VStr text) \/ (fresh_read (dv_disk v) (c ++ u ".__code__") = Ok (VStr text) /\
        (dget (c ++ u ".__code__") (dv_writes v) = None \/ dget (c ++ u ".__code__") (dv_writes v) = Some VNone))).
    { intros v V1 V2. rewrite (find_clean _ _ V1 V2). destruct (dget (c ++ u ".__code__") (dv_writes v)) as [x|]; [|auto]. destruct x; cbn [is_none]; auto; intros E; try discriminate E; injection E as ->; left; reflexivity. }
    induction HH as [|s1 t r s2 HH IH Ht A E|s1 s2 HH IH HU E].
    - repeat (split; [assumption|]). split; [left; intros; split; reflexivity|exact HT].
    - destruct IH as (IA & I1 & I2 & I3 & I5 & I6).
      destruct (execute_still L c K HK HE HO fuel g t A (HF t Ht) s1 r s2 IA E) as [[(B1 & B2 & B3) S1 S3] IA2].
      assert (HP : present c (s_drv s1)) by (apply present_code; eexists; split; [exact I6|discriminate]). specialize (S3 HP).
      split; [exact IA2|]. rewrite B1, B3. split; [exact I1|]. split; [exact I2|]. split; [exact (S1 I3)|]. split.
      + rewrite B2. destruct I5 as [I5|I5]; [left|right]; intros k Hk; rewrite (S3 k Hk); apply I5, Hk.
      + unfold reads_as in *. rewrite get_result in *. rewrite <- I6. unfold find, pget. rewrite B1, B2, B3, (S3 _ HK). reflexivity.
    - destruct IH as (IA & I1 & I2 & I3 & I5 & I6).
      unfold on_w, on_drv in E. destruct (commit (w_drv (s_w s1))) as [x v2] eqn:EC. injection E as -> <-. fold (s_drv s1) in EC.
      destruct (C03_commit_durable _ _ EC) as (_ & W2 & G2). pose proof EC as EI. apply commit_inv in EI as (d' & _ & EV). 
      assert (Fr : forall k, In k K -> fresh_read (dv_disk v2) k = match dget k (dv_writes (s_drv s1)) with Some x => stored_form x | None => fresh_read (dv_disk (s_drv s1)) k end).
      { intros k Hk. apply C03_separate_keys; [exact I3|exact EC|apply HUK, Hk|]. intros k' Hk' Hp. exact (HU k k' Hk Hk' Hp). }
      assert (HN : forall k, In k K -> dget k (dv_writes v2) = None /\ fresh_read (dv_disk v2) k = V k).
      { intros k Hk. rewrite W2. split; [reflexivity|]. rewrite (Fr k Hk). unfold V. destruct I5 as [I5|I5]; destruct (I5 k Hk) as [J1 J2]; rewrite J1; [rewrite J2; reflexivity|exact J2]. }
      assert (D2 : s_drv (set_w (mkW v2 (w_rt (s_w s1))) s1) = v2) by reflexivity. rewrite D2.
      split; [exact IA|]. split; [rewrite EV; reflexivity|]. split; [rewrite EV; exact I2|]. split; [rewrite W2; constructor|]. split; [right; exact HN|].
      unfold reads_as in *. rewrite D2, (G2 I2). rewrite (Fr _ HK). rewrite get_result in I6, HT. destruct (SPL _ I1 I2 I6) as [X|[X [Y|Y]]]; [rewrite X; exact ST|rewrite Y; exact X|].
      (* a pending deletion of the code: impossible *)
      exfalso. destruct I5 as [I5|I5]; destruct (I5 _ HK) as [J1 J2]; rewrite Y in J1; [|discriminate J1]. symmetry in J1. rewrite (C5 _ HK J1) in J2. congruence. }
  destruct H as (_ & I1 & I2 & _ & I5 & I6). split; [exact I6|]. destruct HC as [C1 C2 C3 C5].
  intros k Hk. unfold reads_as. rewrite !get_result, !find_clean by assumption. destruct I5 as [I5|I5]; destruct (I5 k Hk) as [J1 J2]; rewrite J1, J2; [left; reflexivity|].
  unfold V. destruct (dget k (dv_writes (s_drv s))) as [x|] eqn:ED; [|left; reflexivity]. destruct (is_none x) eqn:EN; [|right; exists x; auto].
  left. assert (x = VNone) as -> by (destruct x; [reflexivity|discriminate EN..]). rewrite (C5 k Hk ED). reflexivity.
Qed.

(** A world with the submission contract; contract code is the name of a behaviour *)
Definition sub_lang (mods : dict modul) : lang := demo ((u "sub", submission_modul (demo [])) :: mods).
Definition sub_start (ws : dict pyval) : mach := idle_mach (deployed SUBMISSION (u "sub") VNone ++ ws).
Definition submit_of (who name code : string) : txn :=
  mkTx (u who) SUBMISSION (u "submit_contract") [(u "name", VStr (u name)); (u "code", VStr (u code))] [] false 1000 20 (Some false).
Definition plain_mod (name : string) : modul := only_f (u name) (PRet VNone).
Definition two_mods : lang := sub_lang [(u "good", plain_mod "con_a"); (u "evil", plain_mod "con_a:x"); (u "forge", only_f (u "con_f") (put "con_a" "__code__" (VStr (u "evil")) (PRet VNone)))].
(** the machines after a sequence of transactions *)
Definition after (L : lang) (ts : list txn) (s : mach) : mach := fold_left (fun s t => snd (execute L 10 cfg0 t s)) ts s.
Definition good_outcome (L : lang) (t : txn) (s : mach) : bool := match execute L 10 cfg0 t s with (Ok out, _) => Z.eqb (o_status out) 0 | _ => false end.
Definition ta : txn := submit_of "bob" "con_a" "good".
Definition tx_x : txn := submit_of "eve" "con_a:x" "evil".
Definition s_a : mach := after two_mods [ta] (sub_start []).
Definition s_ax : mach := after two_mods [ta; tx_x] (sub_start []).
Definition s_axc : mach := snd (on_w (on_drv commit) s_ax).
(** Two accepted submissions of different names: the second one replaces the first one's code, owner and developer when they
    are committed, because 'con_a:x.__code__' and 'con_a.__code__' are stored at the same place *)
Theorem C61_alias_refuted : good_outcome two_mods ta (sub_start []) = true /\ good_outcome two_mods tx_x s_a = true /\
  reads_as s_ax (u "con_a.__code__") = Ok (VStr (u "good")) /\ reads_as s_ax (u "con_a.__developer__") = Ok (VStr (u "bob")) /\
  on_w (on_drv commit) s_ax = (Ok tt, s_axc) /\
  reads_as s_axc (u "con_a.__code__") = Ok (VStr (u "evil")) /\ reads_as s_axc (u "con_a.__developer__") = Ok (VStr (u "eve")).
Proof.
  split; [vm_compute; reflexivity|]. split; [vm_compute; reflexivity|]. split; [vm_compute; reflexivity|]. split; [vm_compute; reflexivity|].
  split; [vm_compute; reflexivity|]. split; vm_compute; reflexivity.
Qed.
(** A contract that declares Variable(contract='con_a', name='__code__') replaces the code of con_a *)
Definition t_forge : txn := mkTx (u "eve") (u "con_f") (u "f") [] [] false 1000 20 (Some false).
Definition s_f : mach := after two_mods [ta; submit_of "eve" "con_f" "forge"] (sub_start []).
Theorem C61_foreign_write_refuted : good_outcome two_mods t_forge s_f = true /\
  reads_as s_f (u "con_a.__code__") = Ok (VStr (u "good")) /\ reads_as (after two_mods [t_forge] s_f) (u "con_a.__code__") = Ok (VStr (u "evil")).
Proof. split; [vm_compute; reflexivity|]. split; vm_compute; reflexivity. Qed.
(** With a driver that bypasses the cache a pending submission is replaced by a second one *)
Definition s_by : mach := mkS (mkW (driver0 true (dv_disk (s_drv (snd (on_w (on_drv commit) (sub_start [])))))) rt0) [] [] false [].
Definition ta2 : txn := submit_of "eve" "con_a" "evil".
Theorem C61_bypass_refuted : good_outcome two_mods ta s_by = true /\ good_outcome two_mods ta2 (after two_mods [ta] s_by) = true /\
  pget (u "con_a.__code__") (dv_writes (s_drv (after two_mods [ta] s_by))) = VStr (u "good") /\
  pget (u "con_a.__code__") (dv_writes (s_drv (after two_mods [ta; ta2] s_by))) = VStr (u "evil").
Proof. split; [vm_compute; reflexivity|]. split; [vm_compute; reflexivity|]. split; vm_compute; reflexivity. Qed.

(** The submission contract itself satisfies the hypotheses for the entries other than the developer *)
Definition fixed_entries (c : pystr) : list pystr := [c ++ u ".__code__"; c ++ u ".__compiled__"; c ++ u ".__owner__"; c ++ u ".__submitted__"].
Lemma fixed_are_entries c k : In k (fixed_entries c) -> In k (contract_entries c).
Proof. cbn [fixed_entries contract_entries In]. intuition. Qed.
Lemma developer_not_fixed c c' : ~ In (make_key c' DEVELOPER_KEY []) (fixed_entries c).
Proof.
  assert (H : forall s, ~ In DOT s -> s <> DEVELOPER_KEY -> c ++ DOT :: s <> c' ++ DOT :: DEVELOPER_KEY).
  { intros s Hs Hn E. apply last_dot in E; [|exact Hs|vm_compute; intuition discriminate]. apply Hn, E. }
  cbn [fixed_entries In]. change (make_key c' DEVELOPER_KEY []) with (c' ++ DOT :: DEVELOPER_KEY). intros [E|[E|[E|[E|[]]]]].
  - apply (H (u "__code__")) in E; [exact E|vm_compute; intuition discriminate|vm_compute; discriminate].
  - apply (H (u "__compiled__")) in E; [exact E|vm_compute; intuition discriminate|vm_compute; discriminate].
  - apply (H (u "__owner__")) in E; [exact E|vm_compute; intuition discriminate|vm_compute; discriminate].
  - apply (H (u "__submitted__")) in E; [exact E|vm_compute; intuition discriminate|vm_compute; discriminate].
Qed.
Lemma submission_leaves L L' c : module_all (code_leaves L (fixed_entries c)) (submission_modul L').
Proof.
  constructor.
  - cbn. auto.
  - cbn. discriminate.
  - intros n f a H. unfold submission_modul, m_funcs in H. cbn [dget] in H. destruct (str_eqb n (u "submit_contract")).
    + apply some_inj in H. subst f. cbn [f_body]. assert (HE : forall e, each (code_leaves L (fixed_entries c)) (PRaise e)) by (intros; split; exact I).
      destruct (dget (u "name") a) as [[| | | |nm| | | | | | | | |]|]; try apply HE. destruct (dget (u "code") a) as [[| | | |cd| | | | | | | | |]|]; try apply HE.
      destruct (dict_args _) as [ar|]; [|apply HE]. unfold submit_contract_body. split; [exact I|]. intros cs.
      destruct (_ && _)%bool; [apply HE|]. destruct (negb (ostr_eqb _ _)); [apply HE|]. destruct (negb (Nat.leb _ _)); [apply HE|]. destruct (negb (l_islower L' nm)); [apply HE|].
      unfold submit_prog. split; [exact I|]. intros x. destruct (negb (is_none x)); [apply HE|]. split; [exact I|]. intros now. destruct (l_compile L' nm cd); [|apply HE].
      split; [exact I|]. intros _. split; exact I.
    + destruct (str_eqb n (u "change_developer")); [|discriminate]. apply some_inj in H. subst f. cbn [f_body].
      assert (HE : forall e, each (code_leaves L (fixed_entries c)) (PRaise e)) by (intros; split; exact I).
      destruct (dget (u "contract") a) as [[| | | |nm| | | | | | | | |]|]; try apply HE. destruct (dget (u "new_developer") a) as [nd|]; [|apply HE].
      unfold change_developer_body. split; [exact I|]. intros cs. split; [exact I|]. intros d. destruct (is_owner d (c_caller cs)); [|apply HE].
      split; [cbn [code_leaves leaves]; apply developer_not_fixed|]. intros _. split; exact I.
Qed.
Definition calm_mods : lang := sub_lang [(u "good", plain_mod "con_a"); (u "evil", plain_mod "con_b")].
Definition s_calm : mach := after calm_mods [ta] (sub_start []).
Definition tb : txn := submit_of "eve" "con_a" "evil".
Definition s_calm1 : mach := after calm_mods [tb] s_calm.
Definition s_calm2 : mach := snd (on_w (on_drv commit) s_calm1).
Definition s_calm_end : mach := after calm_mods [tb] s_calm2.
Lemma calm_code ws : all_code (code_leaves calm_mods (fixed_entries (u "con_a"))) calm_mods (sub_start ws).
Proof.
  assert (HP : forall n, module_all (code_leaves calm_mods (fixed_entries (u "con_a"))) (plain_mod n)).
  { intros n. constructor; cbn [plain_mod only_f m_init m_ctor m_funcs]; [split; exact I|discriminate|]. intros m f a. cbn [dget]. destruct (str_eqb m (u "f")); [|discriminate]. intros E. injection E as <-. split; exact I. }
  split; [split|].
  - intros b md. unfold calm_mods, sub_lang, demo, l_interp. cbn [dget]. destruct (str_eqb b (u "sub")); [intros E; injection E as <-; apply submission_leaves|].
    destruct (str_eqb b (u "good")); [intros E; injection E as <-; apply HP|]. destruct (str_eqb b (u "evil")); [intros E; injection E as <-; apply HP|discriminate].
  - intros n md. unfold calm_mods, sub_lang, demo, l_host. destruct (str_eqb n (u "os")); [|discriminate]. intros E. injection E as <-.
    constructor; cbn [os_module m_init m_ctor m_funcs]; [split; exact I|discriminate|]. intros m f a. cbn [dget]. destruct (str_eqb m (u "system")); [|discriminate]. intros E. injection E as <-. split; exact I.
  - intros n md. discriminate.
Qed.
(** con_a is submitted; eve submits other code under that name before and after a commit *)
Example C61_example : set_order (l_ord calm_mods) /\ (forall k, In k (fixed_entries (u "con_a")) -> key_ok k) /\
  all_code (code_leaves calm_mods (fixed_entries (u "con_a"))) calm_mods s_calm /\ clean (fixed_entries (u "con_a")) s_calm /\
  reads_as s_calm (u "con_a.__code__") = Ok (VStr (u "good")) /\ text_ok (u "good") /\
  good_outcome calm_mods tb s_calm = false /\
  tx_history calm_mods 10 cfg0 (fun t => t = tb) (fixed_entries (u "con_a")) s_calm s_calm_end /\ reads_as s_calm_end (u "con_a.__owner__") = Ok VNone.
Proof.
  split; [intros l k; reflexivity|]. split. { intros k. cbn [fixed_entries In]. intros [<-|[<-|[<-|[<-|[]]]]]; vm_compute; discriminate. }
  split.
  { assert (A : t_auto ta = false) by reflexivity. assert (F : metered cfg0 ta = true -> ~ In (balance_key cfg0 ta) (fixed_entries (u "con_a"))) by discriminate.
    assert (O : set_order (l_ord calm_mods)) by (intros l k; reflexivity).
    refine (proj2 (execute_still calm_mods (u "con_a") (fixed_entries (u "con_a")) (or_introl eq_refl) (fixed_are_entries _) O 10 cfg0 ta A F (sub_start []) _ s_calm (calm_code _) _)).
    unfold s_calm, after. cbn [fold_left]. apply surjective_pairing. }
  split.
  { assert (N : NoDup (dkeys (dv_writes (s_drv s_calm)))).
    { assert (E : forallb (fun k => Nat.leb (count_occ (list_eq_dec N.eq_dec) (dkeys (dv_writes (s_drv s_calm))) k) 1) (dkeys (dv_writes (s_drv s_calm))) = true) by (vm_compute; reflexivity).
      apply (NoDup_count_occ (list_eq_dec N.eq_dec)). intros k. destruct (in_dec (list_eq_dec N.eq_dec) k (dkeys (dv_writes (s_drv s_calm)))) as [Hi|Hi].
      - rewrite forallb_forall in E. apply Nat.leb_le, E, Hi.
      - apply (count_occ_not_In (list_eq_dec N.eq_dec)) in Hi. rewrite Hi. auto. }
    constructor; [vm_compute; reflexivity|vm_compute; reflexivity|exact N|]. intros k H _. cbn [fixed_entries In] in H. destruct H as [<-|[<-|[<-|[<-|[]]]]]; vm_compute; reflexivity. }
  split; [vm_compute; reflexivity|]. split; [cbn; repeat (split; [auto; lia|]); exact I|]. split; [vm_compute; reflexivity|]. split.
  { apply (hi_tx calm_mods 10 cfg0 (fun t => t = tb) (fixed_entries (u "con_a")) s_calm s_calm2 tb (fst (execute calm_mods 10 cfg0 tb s_calm2)) s_calm_end); [|reflexivity|reflexivity|exact (surjective_pairing _)].
    apply (hi_commit calm_mods 10 cfg0 (fun t => t = tb) (fixed_entries (u "con_a")) s_calm s_calm1 s_calm2); [apply (hi_tx calm_mods 10 cfg0 (fun t => t = tb) (fixed_entries (u "con_a")) s_calm s_calm tb (fst (execute calm_mods 10 cfg0 tb s_calm)) s_calm1); [apply hi_start|reflexivity|reflexivity|exact (surjective_pairing _)]| |].
    - unfold unaliased. intros k k' H H'.
      assert (E : forallb (fun k => forallb (fun k' => negb (same_place k k') || str_eqb k' k)%bool (dkeys (dv_writes (s_drv s_calm1)))) (fixed_entries (u "con_a")) = true) by (vm_compute; reflexivity).
      rewrite forallb_forall in E. specialize (E k H). rewrite forallb_forall in E. specialize (E k' H'). intros HS. rewrite HS in E. cbn [negb orb] in E. destruct (str_eqb_spec k' k); [assumption|discriminate E].
    - assert (E : fst (on_w (on_drv commit) s_calm1) = Ok tt) by (vm_compute; reflexivity). rewrite <- E. exact (surjective_pairing _). }
  vm_compute. reflexivity.
Qed.

(** ** C62 *)
Definition in_body (L : lang) (fuel : nat) (chain : list pystr) (p : prog) (s : mach) : result pyval * mach := with_export chain SUBMISSION (deeper L fuel (SUBMISSION :: chain) p) s.
Lemma call_submit L fuel chain kw s : submission_loaded L s -> call L (deeper L fuel) chain SUBMISSION (u "submit_contract") kw s =
  in_body L fuel chain (match dget (u "name") kw, dget (u "code") kw, dict_args (pget (u "constructor_args") kw) with
     | Some (VStr name), Some (VStr code), Some args => submit_contract_body L name code (pget (u "owner") kw) args
     | _, _, _ => PRaise EType end) s.
Proof. intros H. unfold call. rewrite bind_eq. cbn [gets]. rewrite H. reflexivity. Qed.
Lemma call_change L fuel chain kw s : submission_loaded L s -> call L (deeper L fuel) chain SUBMISSION (u "change_developer") kw s =
  in_body L fuel chain (match dget (u "contract") kw, dget (u "new_developer") kw with
     | Some (VStr c), Some n => change_developer_body c n
     | _, _ => PRaise EType end) s.
Proof. intros H. unfold call. rewrite bind_eq. cbn [gets]. rewrite H. reflexivity. Qed.
Lemma reads_find s k : reads_as s k = find k (s_drv s).
Proof. apply get_result. Qed.
Lemma in_body_ok L fuel chain p s v s' : in_body L fuel chain p s = (Ok v, s') -> List.length (cx_stack (s_ctx s)) < RECURSION_LIMIT ->
  exists n s1 s2 x, fuel = S n /\ run L n (SUBMISSION :: chain) p s1 = (Ok v, s2) /\ s_drv s' = s_drv s2 /\ s_drv s1 = set_reads x (s_drv s) /\
    c_caller (get_state (s_ctx s1)) = caller_in s SUBMISSION /\ c_signer (get_state (s_ctx s1)) = signer_of s.
Proof.
  intros H HL. unfold in_body, with_export in H. destruct (enter SUBMISSION s) as [[[]|e] s1] eqn:EE; [|discriminate].
  destruct (enter_context _ _ _ EE HL) as [E1 E2]. pose proof (enter_drv SUBMISSION s) as (x & HX). rewrite EE in HX. cbn [snd] in HX.
  set (s1' := note _ s1) in H. destruct fuel as [|n]; [discriminate|]. cbn [deeper] in H. destruct (run L n (SUBMISSION :: chain) p s1') as [r s2] eqn:ER. injection H as -> <-.
  exists n, s1', s2, x. split; [reflexivity|]. split; [exact ER|]. repeat split; assumption.
Qed.
(** Full statement: a successful submit_contract by anyone but 'sys' created a name starting with 'con_', lower-case, at most 64
    characters, that did not exist, called directly by the transaction signer.
    Proved for every call of submit_contract, by any code in any state: the name is as required, did not exist and exists afterwards, and
    the caller it saw was the signer.  So a contract other than the submission contract cannot submit (C62_contracts_cannot).
    Missing: code that runs in the submission contract's own context, that is constructors: C62_nested_refuted. *)
Theorem C62_submit_partial L fuel chain kw s v s' : submission_loaded L s -> dv_bypass (s_drv s) = false -> List.length (cx_stack (s_ctx s)) < RECURSION_LIMIT ->
  call L (deeper L fuel) chain SUBMISSION (u "submit_contract") kw s = (Ok v, s') ->
  exists name code, dget (u "name") kw = Some (VStr name) /\ dget (u "code") kw = Some (VStr code) /\
    (caller_in s SUBMISSION = Some (u "sys") \/ startswith name (u "con_") = true) /\ List.length name <= 64 /\ l_islower L name = true /\
    caller_in s SUBMISSION = signer_of s /\ reads_as s (name ++ u ".__code__") = Ok VNone /\ has_code s' name.
Proof.
  intros HS HB HL H. rewrite (call_submit _ _ _ _ _ HS) in H. apply in_body_ok in H as (n & s1 & s2 & x & _ & H & E2 & E1 & EC & EG); [|exact HL].
  assert (HR : forall n ch e s v s', run L n ch (PRaise e) s = (Ok v, s') -> False) by (intros n0 ch e s0 v0 s0'; rewrite run_eq; discriminate).
  destruct (dget (u "name") kw) as [[| | | |name| | | | | | | | |]|]; try (exfalso; exact (HR _ _ _ _ _ _ H)).
  destruct (dget (u "code") kw) as [[| | | |code| | | | | | | | |]|]; try (exfalso; exact (HR _ _ _ _ _ _ H)).
  destruct (dict_args _) as [args|]; [|exfalso; exact (HR _ _ _ _ _ _ H)].
  apply submit_body_inv in H; [|rewrite E1; exact HB]. cbv zeta in H. rewrite EC, EG in H. destruct H as (H1 & H2 & H3 & H4 & H5 & (y & H6 & H7)).
  exists name, code. split; [reflexivity|]. split; [reflexivity|]. split; [exact H1|]. split; [exact H3|]. split; [exact H4|]. split; [exact H2|]. split.
  - rewrite reads_find. rewrite E1, find_set_reads in H5. exact H5.
  - exists y. split; [|exact H7]. rewrite reads_find, E2. exact H6.
Qed.
(** A contract other than the submission contract itself (and not named like the signer) cannot submit: the call raises and changes nothing *)
Theorem C62_contracts_cannot L fuel chain kw s x : submission_loaded L s -> List.length (cx_stack (s_ctx s)) < RECURSION_LIMIT ->
  c_this (get_state (s_ctx s)) = Some x -> x <> SUBMISSION -> signer_of s <> Some x ->
  let (r, s') := call L (deeper L fuel) chain SUBMISSION (u "submit_contract") kw s in (exists e, r = Err e) /\ same_state s s'.
Proof.
  intros HS HL HT HN HG. rewrite (call_submit _ _ _ _ _ HS). unfold in_body, with_export.
  pose proof (enter_drv SUBMISSION s) as (y & HX). destruct (enter SUBMISSION s) as [[[]|e] s1] eqn:EE; cbn [snd] in HX.
  2:{ split; [exists e; reflexivity|]. unfold same_state. rewrite HX. repeat split; reflexivity. }
  destruct (enter_context _ _ _ EE HL) as [E1 E2]. set (s1' := note _ s1).
  assert (HC : caller_in s SUBMISSION = Some x).
  { unfold caller_in. rewrite HT. cbn [ostr_eqb]. destruct (str_eqb_spec x SUBMISSION); [contradiction|reflexivity]. }
  assert (HD : s_drv s1' = set_reads y (s_drv s)) by exact HX.
  assert (HK : c_caller (get_state (s_ctx s1')) = Some x /\ c_signer (get_state (s_ctx s1')) = signer_of s) by (split; [rewrite <- HC; exact E1|exact E2]). clearbody s1'.
  destruct fuel as [|n]; cbn [deeper].
  { cbn [raise]. split; [eexists; reflexivity|]. unfold same_state. change (s_drv (upd_ctx pop_state s1')) with (s_drv s1'). rewrite HD. repeat split; reflexivity. }
  match goal with |- context [run L n ?c ?q s1'] => set (p := q); assert (HP : exists e, run L n c p s1' = (Err e, s1')) end.
  { assert (HR : forall e, exists e', run L n (SUBMISSION :: chain) (PRaise e) s1' = (Err e', s1')) by (intros e; exists e; rewrite run_eq; reflexivity).
    unfold p. destruct (dget (u "name") kw) as [[| | | |name| | | | | | | | |]|]; try apply HR. destruct (dget (u "code") kw) as [[| | | |code| | | | | | | | |]|]; try apply HR.
    destruct (dict_args _) as [args|]; [|apply HR]. rewrite run_eq. unfold submit_contract_body. cbn [go]. rewrite bind_eq. cbn [gets]. destruct HK as [K1 K2]. rewrite K1, K2.
    destruct (negb (ostr_eqb (Some x) (Some (u "sys"))) && _)%bool; [exists EAssertion; reflexivity|].
    assert (HO : ostr_eqb (Some x) (signer_of s) = false).
    { destruct (signer_of s) as [g|]; [|reflexivity]. cbn [ostr_eqb]. destruct (str_eqb_spec x g); [congruence|reflexivity]. }
    rewrite HO. exists EAssertion. reflexivity. }
  clearbody p. destruct HP as (e & HP). rewrite HP. split; [exists e; reflexivity|]. unfold same_state. change (s_drv (upd_ctx pop_state s1')) with (s_drv s1'). rewrite HD. repeat split; reflexivity.
Qed.
(** A constructor that submits another contract, and one that submits other code under the name being submitted *)
Definition submits (name code : string) : prog :=
  PImport Stmt SUBMISSION (PCall SUBMISSION (u "submit_contract") [(u "name", VStr (u name)); (u "code", VStr (u code))] (fun _ => PRet VNone)).
Definition building (md : modul) (p : prog) : modul := mkMod (m_init md) (Some (fun _ => p)) (m_funcs md).
Definition nest_mods : lang := sub_lang [(u "outer", building (plain_mod "con_a") (submits "con_b" "inner")); (u "inner", plain_mod "con_b"); (u "bait", building (plain_mod "con_a") (submits "con_a" "inner"))].
Definition t_outer : txn := submit_of "bob" "con_a" "outer".
Definition t_bait : txn := submit_of "bob" "con_a" "bait".
Definition s_outer : mach := after nest_mods [t_outer] (sub_start []).
Definition s_bait : mach := after nest_mods [t_bait] (sub_start []).
(** The signer submitted con_a only; con_a's constructor submitted con_b in his name *)
Theorem C62_nested_refuted : good_outcome nest_mods t_outer (sub_start []) = true /\ dget (u "name") (t_kwargs t_outer) = Some (VStr (u "con_a")) /\
  reads_as s_outer (u "con_b.__code__") = Ok (VStr (u "inner")) /\ reads_as s_outer (u "con_b.__developer__") = Ok (VStr (u "bob")).
Proof. split; [vm_compute; reflexivity|]. split; [reflexivity|]. split; vm_compute; reflexivity. Qed.
(** The submission of code 'bait' succeeds, but the code stored is another one, that its constructor submitted *)
Theorem C62_replaced_refuted : good_outcome nest_mods t_bait (sub_start []) = true /\ dget (u "code") (t_kwargs t_bait) = Some (VStr (u "bait")) /\
  reads_as s_bait (u "con_a.__code__") = Ok (VStr (u "inner")).
Proof. split; [vm_compute; reflexivity|]. split; [reflexivity|]. vm_compute; reflexivity. Qed.
(** bob calls submit_contract directly; con_x calls it *)
Definition running (this caller : string) (ws : dict pyval) : mach :=
  upd_ctx (fun _ => mkCtx [] (mkCs (Some (u this)) (Some (u caller)) (Some (u "bob")) VNone None VNone))
    (set_restricted true (set_mods [(SUBMISSION, Some (submission_modul calm_mods))] (sub_start ws))).
Definition sub_args (name code : string) : dict pyval := [(u "name", VStr (u name)); (u "code", VStr (u code))].
Definition submitted : mach := snd (call calm_mods (deeper calm_mods 10) [] SUBMISSION (u "submit_contract") (sub_args "con_a" "good") (running "submission" "bob" [])).
Example C62_example : submission_loaded calm_mods (running "submission" "bob" []) /\ dv_bypass (s_drv (running "submission" "bob" [])) = false /\
  List.length (cx_stack (s_ctx (running "submission" "bob" []))) < RECURSION_LIMIT /\
  call calm_mods (deeper calm_mods 10) [] SUBMISSION (u "submit_contract") (sub_args "con_a" "good") (running "submission" "bob" []) = (Ok VNone, submitted) /\
  caller_in (running "submission" "bob" []) SUBMISSION = Some (u "bob") /\
  reads_as submitted (u "con_a.__developer__") = Ok (VStr (u "bob")) /\
  c_this (get_state (s_ctx (running "con_x" "bob" []))) = Some (u "con_x") /\ u "con_x" <> SUBMISSION /\ signer_of (running "con_x" "bob" []) <> Some (u "con_x").
Proof.
  split; [vm_compute; reflexivity|]. split; [reflexivity|]. split; [vm_compute; repeat constructor|]. split; [|split; [vm_compute; reflexivity|split; [vm_compute; reflexivity|split; [vm_compute; reflexivity|split; vm_compute; discriminate]]]].
  assert (E : fst (call calm_mods (deeper calm_mods 10) [] SUBMISSION (u "submit_contract") (sub_args "con_a" "good") (running "submission" "bob" [])) = Ok VNone) by (vm_compute; reflexivity).
  rewrite <- E. exact (surjective_pairing _).
Qed.

(** ** C63 *)
(** Full statement: state produced by a successful submission can always be committed.
    Proved: the entries of a contract can be committed when its name starts with 'con_' (so for every sender but 'sys'), has at most 64
    characters, contains no '/' and no lone surrogate (such a name is refused by the submission: its key cannot be encoded); *)
Theorem C63_names_partial n : startswith n (u "con_") = true -> List.length n <= 64 -> ~ In SLASH n -> existsb is_surrogate n = false -> storable_name n.
Proof. apply con_names. Qed.
(** and a transaction whose submissions (in its log) are of such names leaves a state that can be committed if it found one, provided
    that the contracts' own variables and hashes (and the balance) are at keys that can be committed.
    Missing: auto-commit, executions that raise, names with '/' (C63_refuted). *)
Theorem C63_transaction_partial L fuel g t s out s' v0 : set_order (l_ord L) -> t_auto t = false -> (metered g t = true -> key_writable (balance_key g t)) ->
  all_code (code_storable L) L s -> commit (s_drv s) = (Ok tt, v0) -> execute L fuel g t s = (Ok out, s') -> names_storable (s_log s') ->
  exists v', commit (s_drv s') = (Ok tt, v').
Proof.
  intros HO HA HF HC H0 HE HN. apply (proj2 (C03_commit_succeeds (s_drv s'))).
  assert (K : committable (s_drv s')).
  { refine (execute_committable L HO fuel g t HA HF s out s' HC _ HE HN). unfold committable. apply Forall_forall. intros [k x] Hi.
    destruct (proj1 (C03_commit_succeeds (s_drv s)) (ex_intro _ v0 H0) k x Hi) as [H1 (tx & H2)]. split; [exact H1|]. cbn [snd]. intros e. rewrite H2. discriminate. }
  intros k x Hi. unfold committable in K. rewrite Forall_forall in K. destruct (K (k, x) Hi) as [K1 K2]. split; [exact K1|]. cbn [snd] in K2. destruct (encode x) as [tx|e]; [eauto|]. exfalso. apply (K2 e). reflexivity.
Qed.
(** 'con_a/b' is accepted, and then the commit raises; what it had not written yet is not durable (here another submission) *)
Definition t_slash : txn := submit_of "bob" "con_a/b" "good".
Definition s_slash : mach := after two_mods [t_slash; ta] (sub_start []).
Theorem C63_refuted : good_outcome two_mods t_slash (sub_start []) = true /\ good_outcome two_mods ta (after two_mods [t_slash] (sub_start [])) = true /\
  fst (on_w (on_drv commit) (sub_start [])) = Ok tt /\
  fst (on_w (on_drv commit) s_slash) = Err EOS /\ fresh_read (dv_disk (s_drv (snd (on_w (on_drv commit) s_slash)))) (u "con_a.__code__") = Ok VNone.
Proof. split; [vm_compute; reflexivity|]. split; [vm_compute; reflexivity|]. split; [vm_compute; reflexivity|]. split; vm_compute; reflexivity. Qed.
(** con_a can be committed: the submission of con_a from the start *)
Lemma submission_storable L L' : module_all (code_storable L) (submission_modul L').
Proof.
  assert (HE : forall e, each (code_storable L) (PRaise e)) by (intros; split; exact I).
  constructor; [cbn; auto|discriminate|]. intros n f a H. unfold submission_modul, m_funcs in H. cbn [dget] in H. destruct (str_eqb n (u "submit_contract")).
  - apply some_inj in H. subst f. cbn [f_body]. destruct (dget (u "name") a) as [[| | | |nm| | | | | | | | |]|]; try apply HE. destruct (dget (u "code") a) as [[| | | |cd| | | | | | | | |]|]; try apply HE.
    destruct (dict_args _) as [ar|]; [|apply HE]. unfold submit_contract_body. split; [exact I|]. intros cs.
    destruct (_ && _)%bool; [apply HE|]. destruct (negb (ostr_eqb _ _)); [apply HE|]. destruct (negb (Nat.leb _ _)); [apply HE|]. destruct (negb (l_islower L' nm)); [apply HE|].
    unfold submit_prog. split; [exact I|]. intros x. destruct (negb (is_none x)); [apply HE|]. split; [exact I|]. intros now. destruct (l_compile L' nm cd); [|apply HE].
    split; [exact I|]. intros _. split; exact I.
  - destruct (str_eqb n (u "change_developer")); [|discriminate]. apply some_inj in H. subst f. cbn [f_body].
    destruct (dget (u "contract") a) as [[| | | |nm| | | | | | | | |]|]; try apply HE. destruct (dget (u "new_developer") a) as [nd|]; [|apply HE].
    unfold change_developer_body. split; [exact I|]. intros cs. split; [exact I|]. intros d. destruct (is_owner d (c_caller cs)); [|apply HE].
    split; [exact I|]. intros _. split; exact I.
Qed.
Definition out_a : output := match fst (execute calm_mods 10 cfg0 ta (sub_start [])) with Ok o => o | Err _ => mkOut 0 (Ok VNone) 0 [] [] [] end.
Definition v_start : driver := snd (commit (s_drv (sub_start []))).
Example C63_example : set_order (l_ord calm_mods) /\ t_auto ta = false /\ metered cfg0 ta = false /\ all_code (code_storable calm_mods) calm_mods (sub_start []) /\
  commit (s_drv (sub_start [])) = (Ok tt, v_start) /\ execute calm_mods 10 cfg0 ta (sub_start []) = (Ok out_a, s_calm) /\ o_status out_a = 0%Z /\ names_storable (s_log s_calm).
Proof.
  assert (HP : forall n, module_all (code_storable calm_mods) (plain_mod n)).
  { intros n. constructor; cbn [plain_mod only_f m_init m_ctor m_funcs]; [split; exact I|discriminate|]. intros m f a. cbn [dget]. destruct (str_eqb m (u "f")); [|discriminate]. intros E. injection E as <-. split; exact I. }
  split; [intros l k; reflexivity|]. split; [reflexivity|]. split; [reflexivity|]. split.
  { split; [split|].
    - intros b md. unfold calm_mods, sub_lang, demo, l_interp. cbn [dget]. destruct (str_eqb b (u "sub")); [intros E; injection E as <-; apply submission_storable|].
      destruct (str_eqb b (u "good")); [intros E; injection E as <-; apply HP|]. destruct (str_eqb b (u "evil")); [intros E; injection E as <-; apply HP|discriminate].
    - intros n md. unfold calm_mods, sub_lang, demo, l_host. destruct (str_eqb n (u "os")); [|discriminate]. intros E. injection E as <-.
      constructor; cbn [os_module m_init m_ctor m_funcs]; [split; exact I|discriminate|]. intros m f a. cbn [dget]. destruct (str_eqb m (u "system")); [|discriminate]. intros E. injection E as <-. split; exact I.
    - intros n md. discriminate. }
  split. { assert (E : fst (commit (s_drv (sub_start []))) = Ok tt) by (vm_compute; reflexivity). rewrite <- E. exact (surjective_pairing _). }
  split. { assert (E : fst (execute calm_mods 10 cfg0 ta (sub_start [])) = Ok out_a) by (vm_compute; reflexivity). rewrite <- E. exact (surjective_pairing _). }
  split; [vm_compute; reflexivity|].
  assert (HS : storable_name (u "con_a")) by (apply C63_names_partial; [reflexivity|vm_compute; repeat constructor|vm_compute; intuition discriminate|reflexivity]).
  assert (E : forallb (fun o => match o with OAct _ (ActSetContract n _ _ _ _) => str_eqb n (u "con_a") | OAct _ (ActSetVar _ _ _) => false | _ => true end) (s_log s_calm) = true) by (vm_compute; reflexivity).
  unfold names_storable. apply Forall_forall. intros o Ho. rewrite forallb_forall in E. specialize (E o Ho). destruct o as [e|cs [x|x v|h k|h k v|h l|h l|e p d|salt|d|c n|c n v|nm code o now dev]|ch0 c cs v|n f|r kd n]; try exact I; [discriminate E|].
  destruct (str_eqb_spec nm (u "con_a")) as [->|]; [exact HS|discriminate E].
Qed.

(** ** C64 *)
(** For every call of change_developer, by any code in any state: it succeeds only if the caller it sees is the stored developer, and then
    only the developer entry changes; if it fails nothing changes.  (The caller is the running contract, or for calls made by the sender
    or by constructors of his submissions the sender himself: see C62_nested_refuted.) *)
Theorem C64_change_developer L fuel chain kw s : submission_loaded L s -> List.length (cx_stack (s_ctx s)) < RECURSION_LIMIT ->
  let (r, s') := call L (deeper L fuel) chain SUBMISSION (u "change_developer") kw s in
  dv_cache (s_drv s') = dv_cache (s_drv s) /\ dv_disk (s_drv s') = dv_disk (s_drv s) /\ dv_bypass (s_drv s') = dv_bypass (s_drv s) /\
  match r with
  | Err _ => dv_writes (s_drv s') = dv_writes (s_drv s)
  | Ok _ => exists c new x, dget (u "contract") kw = Some (VStr c) /\ dget (u "new_developer") kw = Some new /\ coerce new = Ok x /\
      reads_as s (c ++ u ".__developer__") = Ok (of_name (caller_in s SUBMISSION)) /\
      dget (c ++ u ".__developer__") (dv_writes (s_drv s')) = Some x /\
      forall k, k <> c ++ u ".__developer__" -> dget k (dv_writes (s_drv s')) = dget k (dv_writes (s_drv s))
  end.
Proof.
  intros HS HL. rewrite (call_change _ _ _ _ _ HS). unfold in_body, with_export.
  pose proof (enter_drv SUBMISSION s) as (y & HX). destruct (enter SUBMISSION s) as [[[]|e] s1] eqn:EE; cbn [snd] in HX.
  2:{ rewrite HX. repeat split. }
  destruct (enter_context _ _ _ EE HL) as [E1 E2]. set (s1' := note _ s1).
  assert (HD : s_drv s1' = set_reads y (s_drv s)) by exact HX. assert (HC : c_caller (get_state (s_ctx s1')) = caller_in s SUBMISSION) by exact E1. clearbody s1'. clear E1 E2 EE HX.
  set (p := match dget (u "contract") kw with Some (VStr c) => _ | _ => _ end).
  assert (HP : forall e, let (r, s') := deeper L fuel (SUBMISSION :: chain) (PRaise e) s1' in s' = s1' /\ exists e', r = Err e').
  { intros e. destruct fuel as [|n]; cbn [deeper]; [split; [reflexivity|eexists; reflexivity]|]. rewrite run_eq. split; [reflexivity|eexists; reflexivity]. }
  assert (DONE : (let (r, s') := deeper L fuel (SUBMISSION :: chain) p s1' in s' = s1' /\ exists e', r = Err e') ->
    let (r, s') := (let (r, s2) := deeper L fuel (SUBMISSION :: chain) p s1' in (r, upd_ctx pop_state s2)) in
    dv_cache (s_drv s') = dv_cache (s_drv s) /\ dv_disk (s_drv s') = dv_disk (s_drv s) /\ dv_bypass (s_drv s') = dv_bypass (s_drv s) /\
    match r with Err _ => dv_writes (s_drv s') = dv_writes (s_drv s) | Ok _ => exists c new x, dget (u "contract") kw = Some (VStr c) /\ dget (u "new_developer") kw = Some new /\ coerce new = Ok x /\
      reads_as s (c ++ u ".__developer__") = Ok (of_name (caller_in s SUBMISSION)) /\ dget (c ++ u ".__developer__") (dv_writes (s_drv s')) = Some x /\
      forall k, k <> c ++ u ".__developer__" -> dget k (dv_writes (s_drv s')) = dget k (dv_writes (s_drv s)) end).
  { destruct (deeper L fuel (SUBMISSION :: chain) p s1') as [r s2]. intros [-> (e' & ->)]. change (s_drv (upd_ctx pop_state s1')) with (s_drv s1'). rewrite HD. repeat split. }
  destruct (dget (u "contract") kw) as [[| | | |c| | | | | | | | |]|] eqn:EK; try (apply DONE; apply HP).
  destruct (dget (u "new_developer") kw) as [new|] eqn:EN; [|apply DONE; apply HP]. clear DONE. subst p. cbv beta iota.
  destruct fuel as [|n]; cbn [deeper]. { cbn [raise]. change (s_drv (upd_ctx pop_state s1')) with (s_drv s1'). rewrite HD. repeat split. }
  rewrite run_eq. unfold change_developer_body. cbn [go]. rewrite bind_eq. cbn [gets]. rewrite HC. rewrite bind_eq.
  unfold act at 1, on_w at 1. cbn [do_act]. unfold on_drv, get_var. pose proof (get_result (make_key c DEVELOPER_KEY []) (w_drv (s_w s1'))) as HF. destruct (ro_get (make_key c DEVELOPER_KEY []) (w_drv (s_w s1'))) as (x0 & HR).
  destruct (get (make_key c DEVELOPER_KEY []) (w_drv (s_w s1'))) as [[d|e] v1]; cbn [fst snd] in *; subst v1.
  2:{ match goal with |- context [upd_ctx pop_state ?z] => change (s_drv (upd_ctx pop_state z)) with (set_reads x0 (s_drv s1')) end. rewrite HD. repeat split. }
  set (s2 := note _ _). assert (D2 : s_drv s2 = set_reads x0 (s_drv s1')) by reflexivity. clearbody s2.
  destruct (is_owner d (caller_in s SUBMISSION)) eqn:EO.
  2:{ cbn [go raise]. change (s_drv (upd_ctx pop_state s2)) with (s_drv s2). rewrite D2, HD. repeat split. }
  assert (ED : d = of_name (caller_in s SUBMISSION)).
  { unfold is_owner in EO. destruct d, (caller_in s SUBMISSION) as [q|]; try discriminate EO; [reflexivity|]. destruct (str_eqb_spec s0 q) as [->|]; [reflexivity|discriminate EO]. }
  cbn [go]. rewrite bind_eq. unfold act at 1, on_w at 1. cbn [do_act]. rewrite bind_eq. unfold set_var.
  destruct (set_spec (make_key c DEVELOPER_KEY []) new false (s_w s2)) as [(x & r & tt' & CO & _ & E1 & E2 & Ht)|(e & r & E1 & E2)].
  - rewrite E1. set (w3 := snd (set _ _ _ _)) in *. clearbody w3. cbn [ret go]. match goal with |- context [upd_ctx pop_state ?z] => change (s_drv (upd_ctx pop_state z)) with (w_drv w3) end.
    fold (s_drv s2) in E2. rewrite E2, D2, HD. cbn [dv_cache dv_disk dv_bypass dv_writes set_txn set_writes set_reads]. change (make_key c DEVELOPER_KEY []) with (c ++ u ".__developer__") in *.
    repeat (split; [reflexivity|]). exists c, new, x. repeat (split; [first [reflexivity|exact CO]|]). split.
    { rewrite reads_find. fold (s_drv s1') in HF. rewrite HD, find_set_reads in HF. rewrite <- HF, ED. reflexivity. }
    split; [rewrite dget_dset, str_eqb_refl; reflexivity|]. intros k Hk. rewrite dget_dset. destruct (str_eqb_spec k (c ++ u ".__developer__")); [contradiction|reflexivity].
  - destruct (set (make_key c DEVELOPER_KEY []) new false (s_w s2)) as [q w3]. cbn [fst snd] in E1, E2. subst q. match goal with |- context [upd_ctx pop_state ?z] => change (s_drv (upd_ctx pop_state z)) with (w_drv w3) end.
    fold (s_drv s2) in E2. rewrite E2, D2, HD. repeat split.
Qed.

(** bob is con_a's developer: he can hand it over, eve's contract con_x cannot *)
Definition handover : dict pyval := [(u "contract", VStr (u "con_a")); (u "new_developer", VStr (u "alice"))].
Definition owned_by_bob : dict pyval := [(u "con_a.__developer__", VStr (u "bob"))].
Definition handed (this caller : string) : result pyval * mach := call calm_mods (deeper calm_mods 10) [] SUBMISSION (u "change_developer") handover (running this caller owned_by_bob).
Example C64_example : submission_loaded calm_mods (running "submission" "bob" owned_by_bob) /\ List.length (cx_stack (s_ctx (running "submission" "bob" owned_by_bob))) < RECURSION_LIMIT /\
  fst (handed "submission" "bob") = Ok VNone /\ reads_as (snd (handed "submission" "bob")) (u "con_a.__developer__") = Ok (VStr (u "alice")) /\
  submission_loaded calm_mods (running "con_x" "bob" owned_by_bob) /\
  fst (handed "con_x" "bob") = Err EAssertion /\ reads_as (snd (handed "con_x" "bob")) (u "con_a.__developer__") = Ok (VStr (u "bob")).
Proof.
  split; [vm_compute; reflexivity|]. split; [vm_compute; repeat constructor|]. split; [vm_compute; reflexivity|]. split; [vm_compute; reflexivity|]. split; [vm_compute; reflexivity|]. split; vm_compute; reflexivity.
Qed.
Print Assumptions C61_transaction_partial.
Print Assumptions C61_history_partial.
Print Assumptions C61_alias_refuted.
Print Assumptions C62_submit_partial.
Print Assumptions C62_contracts_cannot.
Print Assumptions C63_names_partial.
Print Assumptions C63_transaction_partial.
Print Assumptions C63_refuted.
Print Assumptions C64_change_developer.
