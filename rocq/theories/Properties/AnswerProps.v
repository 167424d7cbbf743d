(** * C118: what a call through a contract object answers *)
From Verif Require Import Model.Base Model.State Model.Dec Model.Time Model.Value Model.Encoder Model.Hdf5 Model.Runtime Model.Driver Model.Orm Model.Exec Model.Executor Model.Client Model.ClientAnswer.
From Verif Require Import Spec.EncSpec Spec.DriverSpec Spec.OrmSpec Spec.ExecSpec Spec.SubmitSpec Spec.ClientSpec.
From Verif Require Import Proofs.BaseFacts Proofs.EncFacts Proofs.DiskFacts Proofs.DriverFacts Proofs.ReachFacts Proofs.SubmitFacts Proofs.TxFacts.
From Verif Require Import Properties.DriverProps Properties.OrmProps Properties.Demo Properties.TxProps Properties.ClientProps.
From Coq Require Import Lia.

(** The environment a call runs in: the one given, or else the client's; with the time given, or else of the clock, if it has none *)
Definition call_environment (c : client) (clock : pyval) (env : option (dict pyval)) (now : option pyval) : dict pyval :=
  let e := match env with Some (x :: r) => x :: r | _ => k_env c end in
  if is_none (pget NOW e) then dset NOW (match now with Some n => if is_none n then clock else n | None => clock end) e else e.
(** The transaction a call asks for *)
Definition call_tx (c : client) (stamps : Z) (clock : pyval) (sg n f : pystr) (kw : dict pyval) env meter now : txn :=
  mkTx sg n f kw (call_environment c clock env now) false stamps 20 meter.

Lemma abstract_call_eq L fuel production full stamps clock sg n f kw env meter now c :
  let run := execute L fuel (k_cfg c) (call_tx c stamps clock sg n f kw env meter now) (k_mach c) in
  exists e, abstract_call L fuel production full stamps clock sg n f kw env meter now c =
    (match fst run with
     | Err x => Err x
     | Ok o => if production then Err EAttribute
               else if Z.eqb (o_status o) 1 then (if full then Err EType else match o_result o with Ok _ => Err EType | Err x => Err x end)
               else if full then Ok (RReport o) else do v <- o_result o; Ok (RValue v) end, mkClient (snd run) (k_cfg c) e (k_signer c)).
Proof.
  cbv zeta. set (own := match env with Some (_ :: _) => false | _ => true end).
  exists (if own then call_environment c clock env now else k_env c). unfold abstract_call. rewrite bind_eq. cbn [gets]. rewrite bind_eq. fold own.
  fold (call_environment c clock env now). change STAMPS_PER_TAU with 20%Z. fold (call_tx c stamps clock sg n f kw env meter now).
  set (T := call_tx c stamps clock sg n f kw env meter now). clearbody T.
  assert (HX : (if own then modify (set_kenv (call_environment c clock env now)) else ret tt) c = (Ok tt, mkClient (k_mach c) (k_cfg c) (if own then call_environment c clock env now else k_env c) (k_signer c))).
  { destruct own; [reflexivity|]. destruct c; reflexivity. }
  rewrite HX, bind_eq. unfold on_m. cbn [k_mach]. destruct (execute L fuel (k_cfg c) T (k_mach c)) as [[o|x] s]; cbn [fst snd].
  - destruct production; [reflexivity|]. destruct (Z.eqb (o_status o) 1); [destruct full; reflexivity|]. destruct full; [reflexivity|]. destruct (o_result o); reflexivity.
  - reflexivity.
Qed.
(** A report has status 0 and the value the function returned, or status 1 and the exception it raised *)
Lemma report_shape L fuel g t s o s' : execute L fuel g t s = (Ok o, s') ->
  (o_status o = 0%Z /\ exists v, o_result o = Ok v) \/ (o_status o = 1%Z /\ exists e, o_result o = Err e).
Proof.
  intros H. apply execute_inv in H as (_ & r & s1 & w & s3 & _ & _ & _ & _ & ->). cbn [o_status o_result].
  destruct r as [[[v ?] ?]|e]; [left|right]; (split; [reflexivity|eexists; reflexivity]).
Qed.
(** call_contract, of which the other theorems about clients speak, is the call without these keywords *)
Theorem C118_plain_calls L fuel clock sg n f kw env meter now c :
  abstract_call L fuel false false 1000000 clock sg n f kw env meter now c =
  (let! v := call_contract L fuel clock sg n f kw env meter now in ret (RValue v)) c.
Proof.
  unfold abstract_call, call_contract. rewrite !bind_eq. cbn [gets]. rewrite !bind_eq.
  assert (F : forall (X : st client unit) (Y : st client output) (G : output -> st client reply) (H : output -> st client pyval),
    (forall o c1, G o c1 = (let! v := H o in ret (RValue v)) c1) ->
    (let! _ := X in let! o := Y in G o) c = (let! v := (let! _ := X in let! o := Y in H o) in ret (RValue v)) c).
  { intros X Y G H E. rewrite !bind_eq. destruct (X c) as [[t|x] c1]; [|reflexivity]. rewrite !bind_eq. destruct (Y c1) as [[o|x] c2]; [|reflexivity]. rewrite E, bind_eq. reflexivity. }
  rewrite <- !bind_eq. apply F. intros o c1. destruct (Z.eqb (o_status o) 1); destruct (o_result o); reflexivity.
Qed.

Section Answers.
  Variables (L : lang) (fuel : nat) (stamps : Z) (clock : pyval) (sg n f : pystr) (kw : dict pyval) (env : option (dict pyval)) (meter : option bool) (now : option pyval) (c : client).
  Let tx := call_tx c stamps clock sg n f kw env meter now.
  Let call production full := abstract_call L fuel production full stamps clock sg n f kw env meter now c.

  (** A call returns exactly when the transaction succeeds: the value the function returned, or the report of the transaction *)
  Theorem C118_returns full r c' : call false full = (Ok r, c') <->
    exists o v s', execute L fuel (k_cfg c) tx (k_mach c) = (Ok o, s') /\ o_status o = 0%Z /\ o_result o = Ok v /\
      r = (if full then RReport o else RValue v) /\ c' = snd (call false full) /\ k_mach c' = s'.
  Proof.
    unfold call. destruct (abstract_call_eq L fuel false full stamps clock sg n f kw env meter now c) as [e E]. fold tx in E. rewrite E. clear E.
    destruct (execute L fuel (k_cfg c) tx (k_mach c)) as [[o|x] s] eqn:X; cbn [fst snd].
    - destruct (report_shape _ _ _ _ _ _ _ X) as [[S [v R]]|[S [x R]]].
      + rewrite S, R. cbn [Z.eqb bindr]. split.
        * intros H. exists o, v, s. destruct full; injection H as <- <-; repeat split; auto.
        * intros (o' & v' & s' & E1 & _ & E2 & -> & -> & _). injection E1 as <- <-. rewrite R in E2. injection E2 as <-. destruct full; reflexivity.
      + rewrite S, R. cbn [Z.eqb]. split; [destruct full; discriminate|]. intros (o' & v' & s' & E1 & S' & _). injection E1 as <- <-. rewrite S in S'. discriminate S'.
    - split; [discriminate|]. intros (o' & v' & s' & E1 & _). discriminate E1.
  Qed.
  (** If the transaction fails, a call without return_full_output raises exactly the exception it failed with, and nothing has changed but, if the
      transaction was metered, the balance of the signer *)
  Theorem C118_fails o s' : execute L fuel (k_cfg c) tx (k_mach c) = (Ok o, s') -> o_status o = 1%Z ->
    exists e c', o_result o = Err e /\ call false false = (Err e, c') /\ dv_disk (drv_of c') = dv_disk (drv_of c) /\
      forall k, metered (k_cfg c) tx = false \/ k <> balance_key (k_cfg c) tx -> client_reads c' k = client_reads c k.
  Proof.
    intros X S. unfold call. destruct (abstract_call_eq L fuel false false stamps clock sg n f kw env meter now c) as [e E]. fold tx in E. rewrite E, X. clear E. cbn [fst snd].
    destruct (report_shape _ _ _ _ _ _ _ X) as [[S' _]|[_ [x R]]]; [rewrite S in S'; discriminate S'|]. rewrite S, R. cbn [Z.eqb].
    exists x. eexists. split; [reflexivity|]. split; [reflexivity|]. unfold client_reads, drv_of. cbn [k_mach].
    destruct (C45_failed_transaction L fuel (k_cfg c) tx (k_mach c) o s' eq_refl X S) as (_ & _ & _ & D & _ & _ & U & M). split; [exact D|].
    intros k H. fold (reads_as s' k). fold (reads_as (k_mach c) k). destruct (metered (k_cfg c) tx) eqn:Mt.
    - destruct (M eq_refl) as (y & _ & _ & HM). apply HM. destruct H as [H|H]; [discriminate H|exact H].
    - destruct (U eq_refl) as (_ & _ & HU). apply HU.
  Qed.
  (** Without metering, the client's default: whatever a call raises, other than a BaseException, no stored value has changed *)
  Theorem C118_raises_partial production full e c' : metered (k_cfg c) tx = false -> production = false -> call production full = (Err e, c') -> e <> EBase ->
    dv_disk (drv_of c') = dv_disk (drv_of c) /\ forall k, client_reads c' k = client_reads c k.
  Proof.
    intros M -> H NB. unfold call in H. destruct (abstract_call_eq L fuel false full stamps clock sg n f kw env meter now c) as [en E]. fold tx in E. rewrite E in H. clear E.
    destruct (execute L fuel (k_cfg c) tx (k_mach c)) as [[o|x] s] eqn:X; cbn [fst snd] in H; injection H as H <-.
    - destruct (report_shape _ _ _ _ _ _ _ X) as [[S [v R]]|[S [x R]]]; rewrite S, R in H; cbn [Z.eqb bindr] in H; [destruct full; discriminate H|].
      destruct (C45_failed_transaction L fuel (k_cfg c) tx (k_mach c) o s eq_refl X S) as (_ & _ & _ & D & _ & _ & U & _).
      unfold client_reads, drv_of. cbn [k_mach]. split; [exact D|]. exact (proj2 (proj2 (U M))).
    - subst x. destruct (C45_when_it_raises _ _ _ _ _ _ _ X) as [R|[R|R]]; [|contradiction|rewrite M in R; discriminate R].
      unfold execute in X. rewrite R in X. injection X as _ <-. unfold client_reads, drv_of. cbn [k_mach]. split.
      + destruct (k_mach c) as [w m]. destruct w as [d r]. destruct d. reflexivity.
      + intros k. rewrite !get_result. destruct (s_drv (k_mach c)) as [] eqn:E. unfold s_drv in *. cbn. rewrite E. reflexivity.
  Qed.
  (** With return_full_output=True the report of a failed transaction is never returned: the call raises TypeError *)
  Theorem C118_full_output_refuted o s' : execute L fuel (k_cfg c) tx (k_mach c) = (Ok o, s') -> o_status o = 1%Z -> fst (call false true) = Err EType.
  Proof.
    intros X S. unfold call. destruct (abstract_call_eq L fuel false true stamps clock sg n f kw env meter now c) as [e E]. fold tx in E. rewrite E, X. cbn [fst]. rewrite S. reflexivity.
  Qed.
  (** With an executor in production every call raises, after the transaction was executed: the successful ones too *)
  Theorem C118_production_refuted full o s' : execute L fuel (k_cfg c) tx (k_mach c) = (Ok o, s') ->
    fst (call true full) = Err EAttribute /\ k_mach (snd (call true full)) = s'.
  Proof.
    intros X. unfold call. destruct (abstract_call_eq L fuel true full stamps clock sg n f kw env meter now c) as [e E]. fold tx in E. rewrite E, X. split; reflexivity.
  Qed.
End Answers.
(** con_m.f assigns con_m.x and con_m.y and then fails with an assertion (or, for the last line, SystemExit); and a function that returns *)
Local Open Scope string_scope.
Definition asked (l : lang) (fn : pystr) (production full : bool) : result reply * client :=
  abstract_call l 10 production full 1000 (VInt 5) (u "bob") (u "con_m") fn [] None (Some false) None (mkClient fail_start cfg0 [] (u "bob")).
Definition good_lang := demo [(u "con_m", only_f (u "con_m") (put "con_m" "x" (VInt 5) (PRet (VInt 7))))].
Example C118_example :
  fst (asked good_lang (u "f") false false) = Ok (RValue (VInt 7)) /\ client_reads (snd (asked good_lang (u "f") false false)) (u "con_m.x") = Ok (VInt 5) /\
  (exists o, fst (asked good_lang (u "f") false true) = Ok (RReport o) /\ o_result o = Ok (VInt 7)) /\
  fst (asked (fail_lang EAssertion) (u "f") false false) = Err EAssertion /\ client_reads (snd (asked (fail_lang EAssertion) (u "f") false false)) (u "con_m.x") = Ok (VInt 1) /\
  fst (asked (fail_lang EAssertion) (u "f") false true) = Err EType /\
  fst (asked good_lang (u "f") true false) = Err EAttribute /\ client_reads (snd (asked good_lang (u "f") true false)) (u "con_m.x") = Ok (VInt 5).
Proof. split; [|split; [|split; [|split; [|split; [|split; [|split]]]]]]; try (vm_compute; reflexivity). eexists. split; vm_compute; reflexivity. Qed.
(** Without the exclusion of BaseException: con_m.x stays changed *)
Theorem C118_base_exception_refuted : exists l c', asked l (u "f") false false = (Err EBase, c') /\ client_reads c' (u "con_m.x") = Ok (VInt 5) /\
  client_reads (mkClient fail_start cfg0 [] (u "bob")) (u "con_m.x") = Ok (VInt 1).
Proof. exists (fail_lang EBase), (snd (asked (fail_lang EBase) (u "f") false false)). split; [|split]; vm_compute; reflexivity. Qed.
