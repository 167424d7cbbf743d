(** * C120: what a transaction is charged for *)
From Verif Require Import Model.Base Model.State Model.Dec Model.Value Model.Encoder Model.Hdf5 Model.Runtime Model.Driver Model.Orm Model.Exec Model.Executor.
From Verif Require Import Spec.ExecSpec Proofs.BaseFacts Proofs.DriverFacts.
From Verif Require Import Properties.DriverProps Properties.Demo Properties.EndsProps.
From Coq Require Import Lia.
Local Open Scope Z_scope.

(** What a metered run does to the tracer: it executes a line (of the contract, or of the library), or writes something for which [n] is charged *)
Inductive event : Type := Line (e : line_event) | Write (n : Z).
Definition feed (e : event) : st tracer unit := match e with Line e => on_line e | Write n => add_cost n end.
(** The run until it ends or is stopped: whether it was stopped, and the stamps (times 1000) used *)
Definition metered_run (l : list event) (supplied : Z) : result unit * Z :=
  let (r, t) := foreach feed l (tr_start (set_stamp supplied tracer0)) in (r, tr_cost t).

(** ** What should be charged: the opcodes of the contract's lines, and the writes *)
Definition charges (l : list event) : list Z :=
  flat_map (fun e => match e with Line e => if le_contract e then [cu_cost (le_opcode e)] else [] | Write n => [n] end) l.
(** spending until the limit is passed *)
Fixpoint spend (limit spent : Z) (cs : list Z) : result unit * Z :=
  match cs with
  | [] => (Ok tt, spent)
  | c :: r => if limit <? spent + c then (Err EAssertion, spent + c) else spend limit (spent + c) r
  end.
(** ** The limits of the machine *)
Definition lines (l : list event) : Z := Z.of_nat (List.length (filter (fun e => match e with Line _ => true | Write _ => false end) l)).
(** growth of the process's memory, as seen at the contract's lines; [last]: the last size seen *)
Fixpoint growth (last : option Z) (l : list event) : Z :=
  match l with
  | [] => 0
  | Line e :: r => if le_contract e then Z.max 0 (le_rss2 e - match last with Some m => m | None => le_rss1 e end) + growth (Some (le_rss2 e)) r else growth last r
  | Write _ :: r => growth last r
  end.
Definition sized (e : event) : Prop := match e with Line e => le_contract e = true -> 0 < le_rss2 e | Write _ => True end.

Lemma growth_pos l : forall last, 0 <= growth last l.
Proof. induction l as [|[e|n] l IH]; intros last; cbn [growth]; [lia| |apply IH]. destruct (le_contract e); [|apply IH]. specialize (IH (Some (le_rss2 e))). lia. Qed.
Lemma lines_pos l : 0 <= lines l. Proof. unfold lines. lia. Qed.
Lemma lines_cons e l : lines (e :: l) = (match e with Line _ => 1 | Write _ => 0 end) + lines l.
Proof. unfold lines. destruct e; cbn [filter]; [|reflexivity]. cbn [List.length]. lia. Qed.

(** Full statement: the stamps used, and whether the transaction is stopped, depend on the contract's lines and writes alone.
    Proved for runs within the machine's limits: at most 800000 lines (those of the library among them) and 500 MiB of growth. *)
Lemma charge_is t c : charge c t = if Z.min (tr_supplied t) 6500000 <? tr_cost t + c then (Err EAssertion, tr_stop (mkTr (tr_cost t + c) (tr_supplied t) (tr_last_mem t) (tr_total_mem t) (tr_started t) (tr_calls t)))
  else (Ok tt, mkTr (tr_cost t + c) (tr_supplied t) (tr_last_mem t) (tr_total_mem t) (tr_started t) (tr_calls t)).
Proof.
  unfold charge. cbn [tr_cost tr_supplied]. change MAX_STAMPS with 6500000.
  destruct (Z.ltb_spec (tr_supplied t) (tr_cost t + c)), (Z.ltb_spec 6500000 (tr_cost t + c)), (Z.ltb_spec (Z.min (tr_supplied t) 6500000) (tr_cost t + c)); cbn [orb]; try reflexivity; lia.
Qed.
Lemma run_from l : forall t last, tr_started t = true -> tr_last_mem t = match last with Some m => m | None => 0 end -> (match last with Some m => 0 < m | None => True end) ->
  Forall sized l -> tr_calls t + lines l <= 800000 -> tr_total_mem t + growth last l <= 524288000 ->
  (fst (foreach feed l t), tr_cost (snd (foreach feed l t))) = spend (Z.min (tr_supplied t) 6500000) (tr_cost t) (charges l).
Proof.
  induction l as [|ev l IH]; intros t last S M MP SZ C G; [reflexivity|]. cbn [foreach]. rewrite bind_eq. inversion SZ as [|x y SZ1 SZ2]; subst.
  rewrite lines_cons in C. destruct ev as [e|n]; cbn [feed].
  - unfold on_line. rewrite S. unfold trace_line. cbn [tr_cost tr_supplied tr_last_mem tr_total_mem tr_started tr_calls].
    change MAX_CALLS with 800000. pose proof (lines_pos l). destruct (Z.ltb_spec 800000 (tr_calls t + 1)); [lia|].
    cbn [growth] in G. unfold charges. cbn [flat_map]. fold (charges l). destruct (le_contract e) eqn:K; cbn [negb].
    + change MAX_MEM with 524288000. cbn [app].
      set (prev := if Z.eqb (tr_last_mem t) 0 then le_rss1 e else tr_last_mem t).
      assert (P : prev = match last with Some m => m | None => le_rss1 e end).
      { unfold prev. rewrite M. destruct last as [m|]; [|reflexivity]. destruct (Z.eqb_spec m 0); [lia|reflexivity]. }
      set (total := if Z.ltb prev (le_rss2 e) then tr_total_mem t + (le_rss2 e - prev) else tr_total_mem t).
      assert (T : total = tr_total_mem t + Z.max 0 (le_rss2 e - prev)). { unfold total. destruct (Z.ltb_spec prev (le_rss2 e)); lia. }
      rewrite <- P in G. pose proof (growth_pos l (Some (le_rss2 e))). destruct (Z.ltb_spec 524288000 total); [lia|].
      rewrite charge_is. cbn [tr_cost tr_supplied tr_last_mem tr_total_mem tr_started tr_calls spend].
      destruct (Z.ltb_spec (Z.min (tr_supplied t) 6500000) (tr_cost t + cu_cost (le_opcode e))); [reflexivity|].
      rewrite (IH _ (Some (le_rss2 e))); cbn [tr_cost tr_supplied tr_last_mem tr_total_mem tr_started tr_calls]; [reflexivity|exact S|reflexivity|exact (SZ1 K)|exact SZ2|lia|lia].
    + cbn [app]. rewrite (IH _ last); cbn [tr_cost tr_supplied tr_last_mem tr_total_mem tr_started tr_calls]; [reflexivity|exact S|exact M|exact MP|exact SZ2|lia|exact G].
  - unfold add_cost. rewrite charge_is. cbn [growth] in G. unfold charges. cbn [flat_map app]. fold (charges l). cbn [spend].
    destruct (Z.ltb_spec (Z.min (tr_supplied t) 6500000) (tr_cost t + n)); [reflexivity|].
    rewrite (IH _ last); cbn [tr_cost tr_supplied tr_last_mem tr_total_mem tr_started tr_calls]; [reflexivity|exact S|exact M|exact MP|exact SZ2|lia|exact G].
Qed.
Theorem C120_charged_partial l supplied : Forall sized l -> lines l <= 800000 -> growth None l <= 500 * 1024 * 1024 ->
  metered_run l supplied = spend (Z.min supplied 6500000) 0 (charges l).
Proof.
  intros SZ C G. pose proof (run_from l (tr_start (set_stamp supplied tracer0)) None eq_refl eq_refl I SZ) as H. cbn [tr_start set_stamp tracer0 tr_cost tr_supplied tr_last_mem tr_total_mem tr_started tr_calls] in H.
  rewrite <- H by lia. unfold metered_run. change (tr_start (set_stamp supplied tracer0)) with (mkTr 0 supplied 0 0 true 0). destruct (foreach feed l (mkTr 0 supplied 0 0 true 0)) as [r t]. reflexivity.
Qed.
(** ... so it does not matter what the library did in between, nor how big the process was *)
Corollary C120_library_partial l l' supplied : charges l = charges l' ->
  Forall sized l -> lines l <= 800000 -> growth None l <= 500 * 1024 * 1024 -> Forall sized l' -> lines l' <= 800000 -> growth None l' <= 500 * 1024 * 1024 ->
  metered_run l supplied = metered_run l' supplied.
Proof. intros E H1 H2 H3 H4 H5 H6. rewrite !C120_charged_partial by assumption. rewrite E. reflexivity. Qed.
(** Everything that is charged counts, to the last: within the limit the sum, beyond it stopped by the first charge that passes it *)
Theorem C120_spend limit cs : 0 <= limit -> Forall (fun c => 0 <= c) cs ->
  (fold_right Z.add 0 cs <= limit -> spend limit 0 cs = (Ok tt, fold_right Z.add 0 cs)) /\
  (limit < fold_right Z.add 0 cs -> exists before c after, cs = before ++ c :: after /\
     fold_right Z.add 0 before <= limit < fold_right Z.add 0 (before ++ [c]) /\ spend limit 0 cs = (Err EAssertion, fold_right Z.add 0 (before ++ [c]))).
Proof.
  intros L. enough (H : forall cs spent, spent <= limit -> Forall (fun c => 0 <= c) cs ->
    (spent + fold_right Z.add 0 cs <= limit -> spend limit spent cs = (Ok tt, spent + fold_right Z.add 0 cs)) /\
    (limit < spent + fold_right Z.add 0 cs -> exists before c after, cs = before ++ c :: after /\
      spent + fold_right Z.add 0 before <= limit < spent + fold_right Z.add 0 (before ++ [c]) /\ spend limit spent cs = (Err EAssertion, spent + fold_right Z.add 0 (before ++ [c])))).
  { intros F. exact (H cs 0 L F). }
  clear cs. induction cs as [|c cs IH]; intros spent S F; cbn [fold_right spend].
  - split; [intros _; f_equal; lia|]. intros; lia.
  - inversion F as [|x y F1 F2]; subst. assert (P : 0 <= fold_right Z.add 0 cs). { clear - F2. induction F2; cbn [fold_right]; lia. }
    destruct (Z.ltb_spec limit (spent + c)) as [B|B].
    + split; [lia|]. intros _. exists [], c, cs. cbn [app fold_right]. rewrite !Z.add_0_r. split; [reflexivity|]. split; [lia|reflexivity].
    + destruct (IH (spent + c) B F2) as [I1 I2]. split.
      * intros H. rewrite I1 by lia. f_equal. lia.
      * intros H. destruct I2 as (b & c' & a & -> & H1 & H2); [lia|]. exists (c :: b), c', a. cbn [app fold_right]. split; [reflexivity|]. rewrite H2. split; [lia|]. f_equal. lia.
Qed.
Lemma opcode_charges l : (forall n, In (Write n) l -> 0 <= n) -> Forall (fun c => 0 <= c) (charges l).
Proof.
  intros H. apply Forall_forall. intros c I. unfold charges in I. apply in_flat_map in I as ([e|n] & I1 & I2).
  - destruct (le_contract e); [|destruct I2]. destruct I2 as [<-|[]]. pose proof (cu_one (le_opcode e)). lia.
  - destruct I2 as [<-|[]]. apply H, I1.
Qed.

(** ** Beyond the machine's limits *)
Lemma charges_app a b : charges (a ++ b) = charges a ++ charges b.
Proof. unfold charges. apply flat_map_app. Qed.
Definition lib_lines (n : Z) : list event := repeat (Line lib_line) (Z.to_nat n).
Lemma lib_charges n : charges (lib_lines n) = [].
Proof. unfold lib_lines. induction (Z.to_nat n) as [|m IH]; [reflexivity|]. exact IH. Qed.
Lemma lib_stops n : forall t, tr_started t = true -> tr_calls t <= 800000 -> 800000 < tr_calls t + Z.of_nat n -> fst (foreach feed (repeat (Line lib_line) n) t) = Err EAssertion.
Proof.
  induction n as [|n IH]; intros t S B C; [lia|]. cbn [repeat foreach]. rewrite bind_eq. cbn [feed]. unfold on_line. rewrite S. unfold trace_line.
  cbn [tr_cost tr_supplied tr_last_mem tr_total_mem tr_started tr_calls lib_line le_contract negb]. change MAX_CALLS with 800000.
  destruct (Z.ltb_spec 800000 (tr_calls t + 1)) as [H|H]; [reflexivity|]. apply IH; cbn [tr_started tr_calls]; [exact S|lia|lia].
Qed.
(** A run that takes 800001 lines of the library more (reading a key from the disk takes more of them than reading it from the cache) is stopped,
    whatever the contract's own lines are: every transaction that runs through on one machine can be stopped on another *)
Theorem C120_library_refuted l supplied spent : metered_run l supplied = (Ok tt, spent) ->
  exists l', charges l' = charges l /\ fst (metered_run l' supplied) = Err EAssertion.
Proof.
  intros _. exists (lib_lines 800001 ++ l). rewrite charges_app, lib_charges. split; [reflexivity|].
  unfold metered_run. set (t := tr_start (set_stamp supplied tracer0)).
  assert (A : forall a t1, fst (foreach feed a t1) = Err EAssertion -> fst (foreach feed (a ++ l) t1) = Err EAssertion).
  { induction a as [|x a IH]; intros t1; cbn [foreach app]; [discriminate|]. rewrite !bind_eq. destruct (feed x t1) as [[y|y] t2]; [apply IH|auto]. }
  pose proof (A (lib_lines 800001) t) as H. destruct (foreach feed (lib_lines 800001 ++ l) t) as [r t']. cbn [fst] in *. apply H. unfold lib_lines.
  apply lib_stops; unfold t; cbn [tr_start set_stamp tracer0 tr_started tr_calls]; [reflexivity|lia|rewrite Z2Nat.id by lia; lia].
Qed.
(** One line of contract code, run in a process that grows meanwhile (by whatever else it does) *)
Theorem C120_memory_refuted op supplied : cu_cost op <= supplied -> cu_cost op <= 6500000 -> exists l l', charges l = charges l' /\
  metered_run l supplied = (Ok tt, cu_cost op) /\ fst (metered_run l' supplied) = Err EAssertion.
Proof.
  intros H1 H2. exists [Line (mkLine true op 1 1)], [Line (mkLine true op 1 (2 + 500 * 1024 * 1024))]. split; [reflexivity|]. split.
  - assert (Z1 : Forall sized [Line (mkLine true op 1 1)]) by (apply Forall_cons; [intros _; reflexivity|apply Forall_nil]).
    assert (G1 : growth None [Line (mkLine true op 1 1)] <= 500 * 1024 * 1024) by discriminate. assert (C1 : lines [Line (mkLine true op 1 1)] <= 800000) by discriminate.
    rewrite (C120_charged_partial _ _ Z1 C1 G1). unfold charges. cbn [flat_map le_contract le_opcode app spend]. destruct (Z.ltb_spec (Z.min supplied 6500000) (0 + cu_cost op)); [lia|reflexivity].
  - unfold metered_run. cbn [foreach]. rewrite bind_eq. reflexivity.
Qed.
Example C120_example : exists l l', charges l = charges l' /\ l <> l' /\ Forall sized l' /\ lines l' <= 800000 /\ growth None l' <= 500 * 1024 * 1024 /\
  metered_run l 2000 = (Ok tt, 1127) /\ metered_run l' 2000 = (Ok tt, 1127) /\ metered_run l' 1126 = (Err EAssertion, 1127).
Proof.
  exists [Line (code_line 100); Write 125; Line (code_line 85)], [Line lib_line; Line (mkLine true 100 7 7); Write 125; Line lib_line; Line lib_line; Line (mkLine true 85 7 9000000)].
  split; [reflexivity|]. split; [discriminate|]. split; [repeat (apply Forall_cons; [cbn; auto; try reflexivity; try discriminate|]); apply Forall_nil|]. split; [discriminate|]. split; [discriminate|]. repeat split.
Qed.
(** A transaction out of which a BaseException escapes leaves the memory it was charged with to the next one: con_m.f grows by 300 MiB and raises
    it; con_n.f then grows by 300 MiB and is stopped, although it runs through on a machine on which con_m.f was not executed *)
Local Open Scope string_scope.
Definition MIB : Z := 1024 * 1024.
Definition mem_lang := demo [(u "con_m", only_f (u "con_m") (PLine (mkLine true 100 1 (1 + 300 * MIB)) (PRaise EBase)));
  (u "con_n", only_f (u "con_n") (PLine (mkLine true 100 (1 + 300 * MIB) (1 + 600 * MIB)) (PRet (VInt 7))))].
Definition mem_start := idle_mach (deployed (u "con_m") (u "con_m") VNone ++ deployed (u "con_n") (u "con_n") VNone ++ funded "bob" 100)%list.
Definition mem_call (c : string) (s : mach) := execute mem_lang 10 cfg0 (call_of "bob" c "f") s.
Theorem C120_leftover_refuted : fst (mem_call "con_m" mem_start) = Err EBase /\
  match mem_call "con_n" mem_start, mem_call "con_n" (snd (mem_call "con_m" mem_start)) with
  | (Ok o, _), (Ok o', _) => o_status o = 0 /\ o_result o = Ok (VInt 7) /\ o_status o' = 1 /\ o_result o' = Err EAssertion
  | _, _ => False end.
Proof. vm_compute. repeat split. Qed.
