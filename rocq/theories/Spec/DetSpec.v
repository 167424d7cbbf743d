(** * What determinism is about *)
From Verif Require Import Model.Base Model.State Model.Dec Model.Time Model.Value Model.Encoder Model.Hdf5 Model.Runtime Model.Driver Model.Orm Model.Exec Model.Executor.

(** What is read under a key when nothing is pending *)
Definition settled (v : driver) (k : pystr) : result pyval := fst (get k (set_writes [] v)).
(** The keys a driver remembers having written or read could be read *)
Definition sound_reads (v : driver) : Prop :=
  forall k, pget k (dv_writes v) <> VNone \/ pget k (dv_reads v) <> VNone -> exists x, settled v k = Ok x.
(** Two drivers that read the same, whatever is in their caches and files and whatever was read before *)
Record reads_same (v1 v2 : driver) : Prop := mkSame {
  rs_writes : dv_writes v1 = dv_writes v2;
  rs_settled : forall k, settled v1 k = settled v2 k;
  rs_bypass : dv_bypass v1 = dv_bypass v2;
  rs_sound1 : sound_reads v1; rs_sound2 : sound_reads v2 }.
(** Two machines that differ only in caches, files, recorded reads, block deltas, imported Python modules and the
    context left by the last transaction *)
Record alike (s1 s2 : mach) : Prop := mkAlike {
  al_drv : reads_same (s_drv s1) (s_drv s2);
  al_tracer : rt_tracer (s_rt s1) = rt_tracer (s_rt s2); al_bytes : rt_writes (s_rt s1) = rt_writes (s_rt s2); al_env : rt_env (s_rt s1) = rt_env (s_rt s2);
  al_loaded : rt_loaded (s_rt s1) = rt_loaded (s_rt s2); al_seed : rt_seeded (s_rt s1) = rt_seeded (s_rt s2);
  al_stack : cx_stack (s_ctx s1) = cx_stack (s_ctx s2); al_mods : s_mods s1 = s_mods s2; al_res : s_restricted s1 = s_restricted s2 }.
(** The same report, the recorded reads aside *)
Definition same_report (r1 r2 : result output) : Prop :=
  match r1, r2 with
  | Ok o1, Ok o2 => o_status o1 = o_status o2 /\ o_result o1 = o_result o2 /\ o_stamps o1 = o_stamps o2 /\ o_writes o1 = o_writes o2 /\ o_events o1 = o_events o2
  | Err e1, Err e2 => e1 = e2
  | _, _ => False
  end.
Definition reported_reads (r : result output) : dict pyval := match r with Ok o => o_reads o | Err _ => [] end.
(** A transaction that returned, or one that does not commit *)
Definition clean_end (t : txn) (r : result output) : Prop := t_auto t = false \/ exists out, r = Ok out.
(** Code that does not list the entries of a Hash *)
Definition no_listing (p : prog) : Prop := match p with PAct (ActHashAll _ _) _ | PAct (ActHashClear _ _) _ => False | _ => True end.
