(** * C125: an event keeps its declaration *)
From Verif Require Import Model.Base Model.Dec Model.Time Model.Value Model.Encoder Model.State Model.Hdf5 Model.Runtime Model.Driver Model.Orm Model.EventSchema Model.Ast Model.Linter Model.Compiler.
From Verif Require Import Spec.OrmSpec Spec.LintSpec Proofs.BaseFacts Proofs.DriverFacts Properties.DriverProps Properties.OrmProps Properties.LintProps Properties.CompProps.
From Coq Require Import Lia.
Local Open Scope list_scope.

Lemma put_nth_other {A} i j (x : A) l : i <> j -> nth_error (put_nth i x l) j = nth_error l j.
Proof. revert i j. induction l as [|y l IH]; intros [|i] [|j] N; cbn [put_nth nth_error]; try reflexivity; try congruence. apply IH. congruence. Qed.
Lemma put_nth_same {A} i (x : A) l : (i < List.length l)%nat -> nth_error (put_nth i x l) i = Some x.
Proof. revert i. induction l as [|y l IH]; intros [|i] L; cbn [put_nth nth_error List.length] in *; try lia; [reflexivity|]. apply IH. lia. Qed.
Lemma dkeys_params d : dkeys (params_of d) = dkeys d.
Proof. unfold dkeys, params_of. rewrite map_map. reflexivity. Qed.
(** What statements leave alone: objects, and dicts that are not changed *)
Lemma deed_keeps ostr o s r s' : do_deed ostr o s = (r, s') ->
  (forall k ob, nth_error (sg_objects s) k = Some ob -> nth_error (sg_objects s') k = Some ob) /\
  (forall i d, (forall q, o <> Change i q) -> nth_error (sg_dicts s) i = Some d -> nth_error (sg_dicts s') i = Some d).
Proof.
  assert (G : forall A (l : list A) x k y, nth_error l k = Some y -> nth_error (l ++ [x]) k = Some y) by (intros A l x k y H; rewrite nth_error_app1; [exact H|apply nth_error_Some; congruence]).
  destruct o as [d|event i|i d|k data]; cbn [do_deed]; intros H.
  - injection H as <- <-. cbn [sg_objects sg_dicts]. split; [auto|]. intros j q _. apply G.
  - destruct (nth_error (sg_dicts s) i) as [d|]; [|injection H as <- <-; auto]. destruct (log_decl event (params_of d) (sg_world s)) as [[e|e] w]; injection H as <- <-; cbn [sg_objects sg_dicts]; split; auto.
  - injection H as <- <-. cbn [sg_objects sg_dicts]. split; [auto|]. intros j q N E. rewrite put_nth_other; [exact E|]. intros ->. exact (N d eq_refl).
  - destruct (nth_error (sg_objects s) k) as [ob|]; [|injection H as <- <-; auto]. destruct (nth_error (sg_dicts s) (ob_ref ob)) as [d|]; [|injection H as <- <-; auto].
    destruct (log_emit ostr _ data (sg_world s)) as [x w]. injection H as <- <-. auto.
Qed.
Lemma deeds_keep ostr l : forall s r s', do_deeds ostr l s = (r, s') ->
  (forall k ob, nth_error (sg_objects s) k = Some ob -> nth_error (sg_objects s') k = Some ob) /\
  (forall i d, (forall q, ~ In (Change i q) l) -> nth_error (sg_dicts s) i = Some d -> nth_error (sg_dicts s') i = Some d).
Proof.
  induction l as [|o l IH]; intros s r s' H; cbn [do_deeds] in H; [injection H as <- <-; auto|]. rewrite bind_eq in H. destruct (do_deed ostr o s) as [[[]|e] s1] eqn:E.
  - destruct (deed_keeps _ _ _ _ _ E) as [A B]. destruct (IH _ _ _ H) as [A' B']. split; [eauto|]. intros i d N F. apply B'; [intros q I; exact (N q (or_intror I))|]. apply B; [|exact F]. intros q ->. exact (N q (or_introl eq_refl)).
  - injection H as <- <-. destruct (deed_keeps _ _ _ _ _ E) as [A B]. split; [exact A|]. intros i d N F. apply B; [|exact F]. intros q ->. exact (N q (or_introl eq_refl)).
Qed.
(** ** What holds: as long as nobody changes the dict it was declared with, every event of a LogEvent is what C35 says of its declaration: the arguments
    declared, of the types declared, at most three of them indexed.  Whatever else happens in between - other declarations, other events, changes of other dicts. *)
Theorem C125_unchanged_partial ostr event r d s0 s1 l s2 data s3 : nth_error (sg_dicts s0) r = Some d -> NoDup (dkeys d) -> NoDup (dkeys data) ->
  do_deed ostr (Declare event r) s0 = (Ok tt, s1) -> do_deeds ostr l s1 = (Ok tt, s2) -> (forall q, ~ In (Change r q) l) ->
  do_deed ostr (Emit (List.length (sg_objects s0)) data) s2 = (Ok tt, s3) ->
  exists ev, dv_events (w_drv (sg_world s3)) = dv_events (w_drv (sg_world s2)) ++ [ev] /\
    event_ok ostr (get_state (rt_ctx (w_rt (sg_world s2)))) event (c_signer (get_state (rt_ctx (w_rt (sg_world s0))))) (params_of d) data ev.
Proof.
  intros ED ND NA HD HL NC HE. cbn [do_deed] in HD. rewrite ED in HD. destruct (log_decl event (params_of d) (sg_world s0)) as [[e|e] w] eqn:LD; [|discriminate HD]. injection HD as <-.
  destruct (deeds_keep _ _ _ _ _ HL) as [A B]. cbn [sg_objects sg_dicts] in A, B.
  specialize (A (List.length (sg_objects s0)) (mkOb event (le_signer e) r)). rewrite nth_error_app2, Nat.sub_diag in A by lia. specialize (A eq_refl).
  specialize (B r d NC ED). cbn [do_deed] in HE. rewrite A in HE. cbn [ob_ref ob_event ob_signer] in HE. rewrite B in HE.
  destruct (log_emit ostr _ data (sg_world s2)) as [x w2] eqn:LE. injection HE as -> <-. cbn [sg_world].
  assert (Ee : e = mkLE event (le_signer e) (params_of d)) by (apply log_decl_ok in LD as (_ & -> & _); reflexivity). rewrite <- Ee in LE.
  pose proof (C35_events ostr event (params_of d) data (sg_world s0) e w (sg_world s2) (Ok tt) w2 LD ltac:(rewrite dkeys_params; exact ND) NA LE) as (ev & Q & O).
  exists ev. split; [|exact O]. rewrite Q. destruct (w_drv (sg_world s2)). reflexivity.
Qed.
(** ** What does not: the check is of the dict as it was, the event of the dict as it is.  Whatever the dict is changed to, the events are as if it had been declared so and not checked. *)
Theorem C125_changed_refuted ostr s k ob q data : nth_error (sg_objects s) k = Some ob -> (ob_ref ob < List.length (sg_dicts s))%nat ->
  let s1 := snd (do_deed ostr (Change (ob_ref ob) q) s) in
  let run := log_emit ostr (mkLE (ob_event ob) (ob_signer ob) (params_of q)) data (sg_world s) in
  fst (do_deed ostr (Emit k data) s1) = fst run /\ sg_world (snd (do_deed ostr (Emit k data) s1)) = snd run.
Proof.
  intros E L s1 run. subst s1. cbn [do_deed snd sg_objects sg_dicts sg_world]. rewrite E, put_nth_same by exact L. fold run. destruct run; split; reflexivity.
Qed.
(** Contract code can do that:  schema = {'a': {'type': str, 'idx': True}}; paid = LogEvent(event='Paid', params=schema)  and, in an exported function,
    schema['b'] = {'type': str, 'idx': True}.
    An event with four indexed arguments and one with a list, of declarations that are refused: *)
Local Open Scope string_scope.
Definition const_at (z : Z) (c : constant) : ast := Node "Constant" (Some z) [("value", Const c); ("kind", Absent)].
Definition dict_at (z : Z) (l : list (ast * ast)) : ast := Node "Dict" (Some z) [("keys", Items (map fst l)); ("values", Items (map snd l))].
Definition arg_entry (z : Z) : ast := dict_at z [(const_at z (CStr (u "type")), name_at z "str"); (const_at z (CStr (u "idx")), const_at z (CBool true))].
Definition set_item : ast := assign_at 5 (Node "Subscript" (Some 5%Z) [("value", name_at 5 "schema"); ("slice", const_at 5 (CStr (u "b"))); ("ctx", Node "Store" None [])]) (arg_entry 5).
Definition log_event_at (z : Z) : ast := call_at z (name_at z "LogEvent") [] [Node "keyword" (Some z) [("arg", Ident (u "event")); ("value", const_at z (CStr (u "Paid")))];
  Node "keyword" (Some z) [("arg", Ident (u "params")); ("value", name_at z "schema")]].
Definition changing : ast := module [assign_at 1 (stored_at 1 "schema") (dict_at 1 [(const_at 1 (CStr (u "a")), arg_entry 1)]);
  assign_at 2 (stored_at 2 "paid") (log_event_at 2); def_at 4 "f" none_args [set_item] (export_at 3) Absent].
Definition changing' : ast := match fst (parse (u "con_x") python true changing comp0) with Ok t => t | Err _ => Absent end.
Definition one_arg : schema := [(u "a", ([TStr], true))].
Definition four_args : schema := map (fun a => (u a, ([TStr], true))) ["a"; "b"; "c"; "d"].
Definition a_list : schema := [(u "a", ([TList], false))].
Definition stage0 : stage := mkStage [one_arg] [] w0.
Definition four_data : dict pyval := map (fun a => (u a, VStr (u "x"))) ["a"; "b"; "c"; "d"].
Definition after (l : list deed) : stage := snd (do_deeds os0 l stage0).
Theorem C125_refuted :
  (accepted python changing /\ fst (parse (u "con_x") python true changing comp0) = Ok changing' /\ In set_item (nodes changing')) /\
  fst (do_deeds os0 [Declare (u "Paid") 0; Change 0 four_args; Emit 0 four_data; Change 0 a_list; Emit 0 [(u "a", VList [VInt 1])]] stage0) = Ok tt /\
  map (fun e => List.length (ev_indexed e)) (dv_events (w_drv (sg_world (after [Declare (u "Paid") 0; Change 0 four_args; Emit 0 four_data])))) = [4%nat] /\
  map ev_data (dv_events (w_drv (sg_world (after [Declare (u "Paid") 0; Change 0 a_list; Emit 0 [(u "a", VList [VInt 1])]])))) = [[(u "a", VList [VInt 1])]] /\
  fst (log_decl (u "Paid") (params_of four_args) w0) = Err EAssertion /\ fst (log_decl (u "Paid") (params_of a_list) w0) = Err EAssertion.
Proof.
  split; [split; [apply (fine_ok changing); vm_compute; reflexivity|split; [vm_compute; reflexivity|vm_compute; auto 60]]|]. repeat split; vm_compute; reflexivity.
Qed.
(** the hypotheses of C125_unchanged_partial: another dict is changed and another event declared in between *)
Example C125_example : exists s1 s2 s3, nth_error (sg_dicts stage0) 0 = Some one_arg /\ NoDup (dkeys one_arg) /\ do_deed os0 (Declare (u "Paid") 0) stage0 = (Ok tt, s1) /\
  do_deeds os0 [NewDict a_list; Change 1 one_arg; Declare (u "Got") 1; Emit 1 [(u "a", VStr (u "y"))]] s1 = (Ok tt, s2) /\ do_deed os0 (Emit 0 [(u "a", VStr (u "x"))]) s2 = (Ok tt, s3) /\
  List.length (dv_events (w_drv (sg_world s3))) = 2%nat.
Proof.
  exists (after [Declare (u "Paid") 0]), (after [Declare (u "Paid") 0; NewDict a_list; Change 1 one_arg; Declare (u "Got") 1; Emit 1 [(u "a", VStr (u "y"))]]),
    (after [Declare (u "Paid") 0; NewDict a_list; Change 1 one_arg; Declare (u "Got") 1; Emit 1 [(u "a", VStr (u "y"))]; Emit 0 [(u "a", VStr (u "x"))]]).
  split; [reflexivity|]. split; [constructor; [intros []|constructor]|]. repeat split; vm_compute; reflexivity.
Qed.
