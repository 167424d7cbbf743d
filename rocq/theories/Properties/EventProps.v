(** * C35: the signer an event names *)
From Verif Require Import Model.Base Model.State Model.Dec Model.Value Model.Encoder Model.Hdf5 Model.Runtime Model.Driver Model.Orm Model.Exec Model.Executor.
From Verif Require Import Spec.DecSpec Spec.EncSpec Spec.DriverSpec Spec.OrmSpec Spec.ExecSpec.
From Verif Require Import Proofs.BaseFacts Proofs.DriverFacts Proofs.OrmFacts.
From Verif Require Import Properties.DriverProps Properties.OrmProps Properties.Demo Properties.TokenProps.
Local Open Scope string_scope.
Local Open Scope list_scope.

(** An event names the signer of the transaction in which it was declared, that is in which its module was loaded ... *)
Theorem C35_declared_signer ostr name params data w0 e w0' w w' :
  log_decl name params w0 = (Ok e, w0') -> NoDup (dkeys params) -> NoDup (dkeys data) -> log_emit ostr e data w = (Ok tt, w') ->
  exists ev, dv_events (w_drv w') = dv_events (w_drv w) ++ [ev] /\ ev_signer ev = c_signer (get_state (rt_ctx (w_rt w0))) /\ ev_caller ev = c_caller (get_state (rt_ctx (w_rt w))) /\ ev_contract ev = c_this (get_state (rt_ctx (w_rt w))).
Proof.
  intros HD HP HN H. pose proof (C35_events ostr name params data w0 e w0' w (Ok tt) w' HD HP HN H) as (ev & E & O). exists ev. rewrite E. destruct (eo_head _ _ _ _ _ _ _ O) as (O1 & O2 & O3 & O4). split; [destruct (w_drv w); reflexivity|]. auto.
Qed.
(** ... and a module survives its transaction when execute raises (C105_raised_refuted): carol's transaction does, its module stays, and when bob's
    transaction imports it again its body, which declares the events, does not run; what bob then emits is signed carol. *)
Theorem C35_signer_refuted : exists x s1 s2 s3 e s4 ev,
  execute junk_lang 10 cfg0 (call_of "carol" "con_shop" "f") vault_start = (Err x, s1) /\
  (let declared := snd (base_context (call_of "carol" "con_shop" "f") vault_start) in on_w (log_decl (u "Paid") ev35) declared = (Ok e, declared)) /\
  base_context (call_of "bob" "con_shop" "f") s1 = (Ok tt, s2) /\ c_signer (get_state (s_ctx s2)) = Some (u "bob") /\
  plain_import junk_lang (deeper junk_lang 10) Lib [] (u "con_shop") s2 = (Ok tt, s3) /\ s_mods s3 = s_mods s2 /\ s_w s3 = s_w s2 /\
  on_w (log_emit os0 e [(u "amount", VInt 5); (u "from", VStr (u "bob"))]) s3 = (Ok tt, s4) /\
  dv_events (s_drv s4) = dv_events (s_drv s3) ++ [ev] /\ ev_signer ev = Some (u "carol").
Proof.
  set (R := execute junk_lang 10 cfg0 (call_of "carol" "con_shop" "f") vault_start).
  exists (match fst R with Err x => x | Ok _ => EType end), (snd R), (snd (base_context (call_of "bob" "con_shop" "f") (snd R))).
  set (s2 := snd (base_context (call_of "bob" "con_shop" "f") (snd R))).
  set (s3 := snd (plain_import junk_lang (deeper junk_lang 10) Lib [] (u "con_shop") s2)).
  set (e := mkLE (u "Paid") (Some (u "carol")) ev35).
  set (s4 := snd (on_w (log_emit os0 e [(u "amount", VInt 5); (u "from", VStr (u "bob"))]) s3)).
  exists s3, e, s4, (mkEvent (Some (u "con_shop")) (u "Paid") (Some (u "carol")) (Some (u "bob")) [(u "from", VStr (u "bob"))] [(u "amount", VInt 5)]).
  cbv zeta. split; [vm_compute; reflexivity|]. split; [vm_compute; reflexivity|]. split; [vm_compute; reflexivity|]. split; [vm_compute; reflexivity|].
  split; [vm_compute; reflexivity|]. split; [vm_compute; reflexivity|]. split; [vm_compute; reflexivity|]. split; [vm_compute; reflexivity|]. split; vm_compute; reflexivity.
Qed.
