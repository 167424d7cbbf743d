(** * C122: the names the runtime relies on *)
From Verif Require Import Model.Base Model.Dec Model.Time Model.Value Model.State Model.Ast Model.Linter Model.Compiler Model.Scope.
From Verif Require Import Spec.LintSpec Spec.CompSpec Proofs.BaseFacts Properties.LintProps Properties.CompProps.
From Coq Require Import Lia.
Local Open Scope string_scope.
Local Open Scope list_scope.

(** ** Specification *)
(** the last of the bindings of [n] *)
Fixpoint last_of {A : Type} (n : pystr) (l : list (pystr * A)) : option A :=
  match l with [] => None | (m, v) :: l' => match last_of n l' with Some w => Some w | None => if str_eqb n m then Some v else None end end.
(** what the standard library provides *)
Definition LIBRARY : list string :=
  ["Variable"; "Hash"; "ForeignVariable"; "ForeignHash"; "LogEvent"; "__Contract"; "hashlib"; "datetime"; "random"; "importlib"; "__export"; "ctx"; "rt"; "Any"; "decimal"; "crypto"].
(** [body] binds [n] *)
Definition binds {A : Type} (n : pystr) (body : list (pystr * A)) : Prop := exists v, In (n, v) body.

Lemma get_put n m v d : get n (put m v d) = if str_eqb n m then Some v else get n d.
Proof.
  induction d as [|[k w] d IH]; cbn [put get]; [destruct (str_eqb n m); reflexivity|].
  destruct (str_eqb m k) eqn:E; cbn [get].
  - apply str_eqb_eq in E. subst k. destruct (str_eqb n m); reflexivity.
  - rewrite IH. destruct (str_eqb n k) eqn:E2; [|reflexivity]. apply str_eqb_eq in E2. subst k. destruct (str_eqb n m) eqn:E3; [|reflexivity].
    apply str_eqb_eq in E3. subst m. rewrite str_eqb_refl in E. discriminate E.
Qed.
Lemma get_update n e : forall d, get n (update d e) = match last_of n e with Some v => Some v | None => get n d end.
Proof.
  induction e as [|[m v] e IH]; intros d; [reflexivity|]. change (update d ((m, v) :: e)) with (update (put m v d) e). rewrite IH. cbn [last_of].
  destruct (last_of n e); [reflexivity|]. rewrite get_put. destruct (str_eqb n m); reflexivity.
Qed.
Lemma last_of_none {A} n (l : list (pystr * A)) : ~ binds n l -> last_of n l = None.
Proof.
  induction l as [|[m v] l IH]; intros H; [reflexivity|]. cbn [last_of]. rewrite IH by (intros [w K]; apply H; exists w; right; exact K).
  destruct (str_eqb n m) eqn:E; [|reflexivity]. apply str_eqb_eq in E. subst m. destruct H. exists v. left. reflexivity.
Qed.
Lemma last_of_in {A} n (l : list (pystr * A)) v : last_of n l = Some v -> In (n, v) l.
Proof.
  induction l as [|[m w] l IH]; cbn [last_of]; [discriminate|]. destruct (last_of n l) as [x|]; [intros H; right; apply IH, H|].
  destruct (str_eqb n m) eqn:E; [|discriminate]. apply str_eqb_eq in E. intros H. injection H as <-. subst m. left. reflexivity.
Qed.
Lemma last_of_given n env : last_of n (map (fun b => (fst b, Given (snd b))) env) = option_map Given (last_of n env).
Proof. induction env as [|[m v] l IH]; [reflexivity|]. cbn [map last_of fst snd]. rewrite IH. destruct (last_of n l); [reflexivity|]. destruct (str_eqb n m); reflexivity. Qed.
Lemma get_in n d v : get n d = Some v -> In (n, v) d.
Proof.
  induction d as [|[m w] d IH]; cbn [get]; [discriminate|]. destruct (str_eqb n m) eqn:E; [|intros H; right; apply IH, H].
  apply str_eqb_eq in E. subst m. intros H. injection H as <-. left. reflexivity.
Qed.
Lemma gathered : gather = map (fun x => (u x, Library x)) LIBRARY.
Proof. vm_compute. reflexivity. Qed.
Lemma get_library l x : In x l -> (forall a b, In a l -> In b l -> u a = u b -> a = b) -> get (u x) (map (fun y => (u y, Library y)) l) = Some (Library x).
Proof.
  induction l as [|y l IH]; intros I U; [destruct I|]. cbn [map get]. destruct (str_eqb (u x) (u y)) eqn:E.
  - apply str_eqb_eq in E. rewrite (U x y I (or_introl eq_refl) E). reflexivity.
  - apply IH; [|intros a b Ia Ib; apply U; right; assumption]. destruct I as [->|I]; [rewrite str_eqb_refl in E; discriminate E|exact I].
Qed.
Lemma library_apart a b : In a LIBRARY -> In b LIBRARY -> u a = u b -> a = b.
Proof.
  assert (K : forallb (fun a => forallb (fun b => (String.eqb a b || negb (str_eqb (u a) (u b)))%bool) LIBRARY) LIBRARY = true) by (vm_compute; reflexivity).
  intros Ia Ib E. rewrite forallb_forall in K. specialize (K a Ia). cbv beta in K. rewrite forallb_forall in K. specialize (K b Ib). cbv beta in K.
  apply Bool.orb_true_iff in K. destruct K as [K|K]; [apply String.eqb_eq, K|]. rewrite E, str_eqb_refl in K. discriminate K.
Qed.
Lemma get_gather n v : get n gather = Some v <-> exists x, In x LIBRARY /\ n = u x /\ v = Library x.
Proof.
  rewrite gathered. split.
  - intros H. apply get_in, in_map_iff in H. destruct H as (x & E & I). injection E as <- <-. exists x. auto.
  - intros (x & I & -> & ->). apply get_library; [exact I|exact library_apart].
Qed.

(** ** What a name means in the code of a loaded contract: what its own code bound last, else the mark, else the value of the
    environment, else what the standard library provides *)
Theorem C122_meaning env body n :
  (forall v, last_of n body = Some v -> get n (scope_of env body) = Some v) /\
  (~ binds n body -> n = u "__contract__" -> get n (scope_of env body) = Some Marker) /\
  (~ binds n body -> n <> u "__contract__" -> forall v, last_of n env = Some v -> get n (scope_of env body) = Some (Given v)) /\
  (~ binds n body -> n <> u "__contract__" -> ~ binds n env -> forall v, get n (scope_of env body) = Some v <-> exists x, In x LIBRARY /\ n = u x /\ v = Library x).
Proof.
  unfold scope_of. rewrite get_update. split; [|split; [|split]].
  - intros v ->. reflexivity.
  - intros H ->. rewrite (last_of_none _ _ H), get_put. unfold CONTRACT; rewrite str_eqb_refl. reflexivity.
  - intros H N v E. rewrite (last_of_none _ _ H), get_put. apply str_eqb_neq in N. unfold CONTRACT. rewrite N, get_update, last_of_given, E. reflexivity.
  - intros H N E v. rewrite (last_of_none _ _ H), get_put. apply str_eqb_neq in N. unfold CONTRACT. rewrite N, get_update, last_of_given, (last_of_none _ _ E). apply get_gather.
Qed.
(** Every line of contract code is charged, whatever the code and the environment bind *)
Theorem C122_charged env body : charged (scope_of env body) = true.
Proof.
  unfold charged, scope_of. rewrite get_update. destruct (last_of CONTRACT body); [reflexivity|]. rewrite get_put, str_eqb_refl. reflexivity.
Qed.
(** Whatever the environment: code that does not bind __contract__ can import nothing but contracts.  Missing: code that does. *)
Theorem C122_restricted_partial contract env body m : ~ binds (u "__contract__") body -> lets_through contract (scope_of env body) m = contract m.
Proof.
  intros H. unfold lets_through. change CONTRACT with (u "__contract__"). destruct (C122_meaning env body (u "__contract__")) as (_ & K & _). rewrite (K H eq_refl). reflexivity.
Qed.

(** ** Which modules stay *)
(** a history: each transaction with the codes stored then, its environment and its imports *)
Definition past : Type := list (codes * list (pystr * pyval) * list pystr).
Definition history (h : past) (p : process) : process := fold_left (fun q t => transaction (fst (fst t)) (snd (fst t)) (snd t) q) h p.
(** neither the environment nor any contract binds __name__ *)
Definition nameless (C : codes) (env : list (pystr * pyval)) : Prop := ~ binds (u "__name__") env /\ forall n body, C n = Some body -> ~ binds (u "__name__") body.
(** what is loaded is remembered under its name *)
Definition known (p : process) : Prop := forall n s, module_of n (modules p) = Some s -> In (Text n) (remember p).
Lemma not_in_library n : existsb (fun x => str_eqb n (u x)) LIBRARY = false -> get n gather = None.
Proof.
  intros H. destruct (get n gather) as [v|] eqn:E; [|reflexivity]. apply get_gather in E. destruct E as (x & I & -> & _).
  assert (K : existsb (fun y => str_eqb (u x) (u y)) LIBRARY = true) by (apply existsb_exists; exists x; split; [exact I|apply str_eqb_refl]). congruence.
Qed.
Lemma nameless_text C env n body : nameless C env -> C n = Some body -> remembered_as n (scope_of env body) = Text n.
Proof.
  intros [H1 H2] E. unfold remembered_as, scope_of. rewrite get_update. rewrite (last_of_none NAME body (H2 n body E)), get_put.
  replace (str_eqb NAME CONTRACT) with false by (vm_compute; reflexivity). rewrite get_update, last_of_given, (last_of_none NAME env H1). cbn [option_map].
  rewrite (not_in_library NAME); [reflexivity|vm_compute; reflexivity].
Qed.
Lemma known_import C env n p : nameless C env -> known p -> known (import_contract C env n p).
Proof.
  intros H K. unfold import_contract. destruct (module_of n (modules p)) eqn:E; [exact K|]. destruct (C n) as [b|] eqn:B; [|exact K]. cbv zeta. rewrite (nameless_text C env n b H B).
  intros m s. cbn [modules remember module_of]. destruct (str_eqb m n) eqn:Q; intros F; apply in_or_app; [right; left; apply str_eqb_eq in Q; subst m; reflexivity|left; exact (K m s F)].
Qed.
Lemma known_imports C env l : nameless C env -> forall p, known p -> known (imports C env l p).
Proof. intros H. induction l as [|n l IH]; intros p K; [exact K|]. apply IH, known_import; assumption. Qed.
Lemma module_of_filter n (q : pystr -> bool) l : module_of n (filter (fun m => q (fst m)) l) = if q n then module_of n l else None.
Proof.
  induction l as [|[m s] l IH]; cbn [filter module_of fst]; [destruct (q n); reflexivity|]. destruct (str_eqb n m) eqn:E.
  - apply str_eqb_eq in E. subst m. destruct (q n) eqn:Q; cbn [module_of]; [rewrite str_eqb_refl; reflexivity|rewrite IH; reflexivity].
  - destruct (q m); cbn [module_of]; [rewrite E|]; exact IH.
Qed.
Lemma module_of_clean n p : module_of n (modules (clean_up p)) = if existsb (fun r => forgets r n) (remember p) then None else module_of n (modules p).
Proof.
  unfold clean_up. cbn [modules]. rewrite (module_of_filter n (fun m => negb (existsb (fun r => forgets r m) (remember p)))). destruct (existsb _ _); reflexivity.
Qed.
Lemma nothing_left C env l p : nameless C env -> (forall n, module_of n (modules p) = None) -> forall n, module_of n (modules (transaction C env l p)) = None.
Proof.
  intros H E n. unfold transaction. rewrite module_of_clean. destruct (existsb _ _) eqn:X; [reflexivity|]. destruct (module_of n _) as [s|] eqn:M; [|reflexivity].
  assert (K : known p) by (intros m s' F; rewrite E in F; discriminate F). apply (known_imports C env l H p K) in M.
  assert (Y : existsb (fun r => forgets r n) (remember (imports C env l p)) = true) by (apply existsb_exists; exists (Text n); split; [exact M|apply str_eqb_refl]). congruence.
Qed.
Lemma history_nothing h : Forall (fun t => nameless (fst (fst t)) (snd (fst t))) h -> forall p, (forall n, module_of n (modules p) = None) -> forall n, module_of n (modules (history h p)) = None.
Proof.
  induction 1 as [|[[C env] l] h H _ IH]; intros p E; [exact E|]. unfold history. cbn [fold_left fst snd]. apply IH. intros n. apply nothing_left; assumption.
Qed.
(** In every history in which nobody binds __name__, nothing stays loaded, and what a contract of the next transaction sees is the
    environment of that transaction.  Missing: contracts and environments that bind it. *)
Theorem C122_forgotten_partial h p : Forall (fun t => nameless (fst (fst t)) (snd (fst t))) h -> modules p = [] ->
  (forall n, module_of n (modules (history h p)) = None) /\
  forall C env l n body, In n l -> C n = Some body -> module_of n (modules (imports C env l (history h p))) = Some (scope_of env body).
Proof.
  intros H E. assert (N : forall n, module_of n (modules (history h p)) = None) by (apply history_nothing; [exact H|rewrite E; reflexivity]). split; [exact N|].
  intros C env l n body I B. revert N. generalize (history h p). clear - I B. intros q N.
  assert (K : forall l q, module_of n (modules q) = Some (scope_of env body) -> module_of n (modules (imports C env l q)) = Some (scope_of env body)).
  { clear - B. intros l. induction l as [|m l IH]; intros q Q; [exact Q|]. apply IH. unfold import_contract. destruct (module_of m (modules q)) eqn:M; [exact Q|]. destruct (C m) as [b|]; [|exact Q].
    cbv zeta. cbn [modules module_of]. destruct (str_eqb n m) eqn:X; [|exact Q]. apply str_eqb_eq in X. subst m. congruence. }
  assert (F : module_of n (modules q) = None) by apply N. clear N. revert q F. induction l as [|m l IH]; [destruct I|]. intros q F.
  destruct (str_eqb n m) eqn:X.
  - apply str_eqb_eq in X. subst m. apply (K l (import_contract C env n q)). unfold import_contract. rewrite F, B. cbv zeta. cbn [modules module_of]. rewrite str_eqb_refl. reflexivity.
  - destruct I as [->|I]; [rewrite str_eqb_refl in X; discriminate X|]. apply (IH I (import_contract C env m q)). unfold import_contract. destruct (module_of m (modules q)) eqn:M; [exact F|]. destruct (C m) as [b|]; [|exact F].
    cbv zeta. cbn [modules module_of]. rewrite X. exact F.
Qed.

Lemma imports_load C env n body l : C n = Some body -> forall q, (In n l \/ module_of n (modules q) <> None) -> module_of n (modules (imports C env l q)) <> None.
Proof.
  intros B. induction l as [|m l IH]; intros q H; [destruct H as [[]|H]; exact H|]. apply (IH (import_contract C env m q)). unfold import_contract. destruct H as [[->|H]|H]; [right|left; exact H|right].
  - destruct (module_of n (modules q)) eqn:M; [congruence|]. rewrite B. cbv zeta. cbn [modules module_of]. rewrite str_eqb_refl. discriminate.
  - destruct (module_of m (modules q)); [exact H|]. destruct (C m); [|exact H]. cbv zeta. cbn [modules module_of]. destruct (str_eqb n m); [discriminate|exact H].
Qed.
(** An environment with a text under __name__ does the same to every contract: of those a transaction imports, all stay loaded but the one of that name *)
Theorem C122_environment_refuted C env t l p : (forall n body, C n = Some body -> ~ binds (u "__name__") body) -> last_of (u "__name__") env = Some (VStr t) -> modules p = [] -> remember p = [] ->
  forall n, In n l -> C n <> None -> (n <> t -> module_of n (modules (transaction C env l p)) <> None) /\ (n = t -> module_of n (modules (transaction C env l p)) = None).
Proof.
  intros H E P R n I B. destruct (C n) as [body|] eqn:EB; [|congruence]. assert (X : forall m b, C m = Some b -> remembered_as m (scope_of env b) = Text t).
  { intros m b Q. unfold remembered_as. destruct (C122_meaning env b (u "__name__")) as (_ & _ & K & _). change NAME with (u "__name__"). rewrite (K (H m b Q)) with (v := VStr t); [reflexivity| |exact E]. intros Z. vm_compute in Z. discriminate Z. }
  assert (K : forall l q, Forall (fun r => r = Text t) (remember q) -> (modules q <> [] -> remember q <> []) -> Forall (fun r => r = Text t) (remember (imports C env l q)) /\ (modules (imports C env l q) <> [] -> remember (imports C env l q) <> [])).
  { clear - X. induction l as [|m l IH]; intros q F G; [split; assumption|]. apply (IH (import_contract C env m q)); unfold import_contract; destruct (module_of m (modules q)); try assumption; destruct (C m) as [b|] eqn:Q; try assumption; cbv zeta; cbn [remember modules].
    - apply Forall_app. split; [exact F|]. rewrite (X m b Q). apply Forall_cons; [reflexivity|apply Forall_nil].
    - intros _ Z. apply app_eq_nil in Z. destruct Z as [_ Z]. discriminate Z. }
  destruct (K l p) as [K1 K2]; [rewrite R; apply Forall_nil|rewrite P; congruence|]. pose proof (imports_load C env n body l EB p (or_introl I)) as L. unfold transaction. split; intros N; rewrite module_of_clean.
  - destruct (existsb _ _) eqn:Y; [|exact L]. apply existsb_exists in Y. destruct Y as (r & J & F). rewrite Forall_forall in K1. rewrite (K1 r J) in F. cbn [forgets] in F. apply str_eqb_eq in F. congruence.
  - subst t. destruct (remember (imports C env l p)) as [|r k] eqn:Z; [exfalso; apply K2; [|reflexivity]; intros Q; rewrite Q in L; apply L; reflexivity|].
    inversion K1 as [|? ? Q _]; subst. cbn [existsb forgets]. rewrite str_eqb_refl. reflexivity.
Qed.

(** What a def or an import binds: no texts *)
Definition by_def_or_import (C : codes) : Prop := forall n body v, C n = Some body -> In (u "__name__", v) body -> exists k, v = Function k \/ exists m, v = Module m.
Lemma remembered_text C env n m body : by_def_or_import C -> ~ binds (u "__name__") env -> C n = Some body -> remembered_as n (scope_of env body) = Text m -> m = n.
Proof.
  intros H1 H2 E. unfold remembered_as, scope_of. rewrite get_update. destruct (last_of NAME body) as [v|] eqn:L.
  - apply last_of_in in L. destruct (H1 n body v E L) as [k [->|[x ->]]]; discriminate.
  - rewrite get_put. replace (str_eqb NAME CONTRACT) with false by (vm_compute; reflexivity). rewrite get_update, last_of_given, (last_of_none NAME env H2). cbn [option_map].
    rewrite (not_in_library NAME); [|vm_compute; reflexivity]. intros Q. injection Q as <-. reflexivity.
Qed.
(** A module that is not remembered when it is loaded stays with the scope it was loaded with, through every history *)
Theorem C122_stays h : Forall (fun t => by_def_or_import (fst (fst t)) /\ ~ binds (u "__name__") (snd (fst t))) h ->
  forall p n s, module_of n (modules p) = Some s -> remember p = [] -> module_of n (modules (history h p)) = Some s.
Proof.
  induction 1 as [|[[C env] l] h [H1 H2] _ IH]; intros p n s M R; [exact M|]. unfold history. cbn [fold_left fst snd] in *. apply IH; [|reflexivity].
  assert (K : forall l q, module_of n (modules q) = Some s /\ ~ In (Text n) (remember q) -> module_of n (modules (imports C env l q)) = Some s /\ ~ In (Text n) (remember (imports C env l q))).
  { clear - H1 H2. intros l. induction l as [|m l IH]; intros q [Q1 Q2]; [split; assumption|]. apply IH. unfold import_contract. destruct (module_of m (modules q)) eqn:M; [split; assumption|].
    destruct (C m) as [b|] eqn:B; [|split; assumption]. cbv zeta. cbn [modules module_of remember].
    assert (X : m <> n) by (intros ->; congruence). split.
    - destruct (str_eqb n m) eqn:Y; [|exact Q1]. apply str_eqb_eq in Y. congruence.
    - intros I. apply in_app_or in I. destruct I as [I|[I|[]]]; [exact (Q2 I)|]. apply X. symmetry. exact (remembered_text C env m n b H1 H2 B I). }
  destruct (K l p) as [K1 K2]; [split; [exact M|rewrite R; intros []]|]. unfold transaction. rewrite module_of_clean, K1.
  destruct (existsb _ _) eqn:X; [|reflexivity]. apply existsb_exists in X. destruct X as ([t|] & I & F); [|discriminate F]. cbn [forgets] in F. apply str_eqb_eq in F. subst t. destruct (K2 I).
Qed.

(** ** Contract code can bind them *)
Definition import_as (z : Z) (m a : string) : ast := Node "Import" (Some z) [("names", Items [Node "alias" (Some z) [("name", Ident (u m)); ("asname", Ident (u a))]])].
(** @export / def __name__(): pass *)
Definition def_name : ast := def_at 3 "__name__" none_args [pass_at 4] (export_at 2) Absent.
(** import con_y as __contract__ / @export def __name__(): pass / @export def f(): if now: import h5py *)
Definition unmarked : ast := module [import_as 1 "con_y" "__contract__"; def_name;
  def_at 6 "f" none_args [Node "If" (Some 7%Z) [("test", name_at 7 "now"); ("body", Items [import_at 8 "h5py"]); ("orelse", Items [])]] (export_at 5) Absent].
Definition unmarked' : ast := match fst (parse (u "con_x") python true unmarked comp0) with Ok t => t | Err _ => Absent end.
(** what it binds, and an environment *)
Definition unmarked_code (n : pystr) : option scope :=
  if str_eqb n (u "con_x") then Some [(u "__contract__", Module (u "con_y")); (u "__name__", Function 1); (u "f", Function 2)]
  else if str_eqb n (u "con_y") then Some [(u "g", Function 3)] else None.
Definition at_time (z : Z) : list (pystr * pyval) := [(u "now", VInt z)].
Definition nothing_loaded : process := mkProcess [] [].

(** "Contract code cannot bind the names the runtime relies on": the linter accepts the bindings and the compiler keeps them.  Then imports
    of the contract are not restricted any more (h5py is no contract), and the module stays loaded, through every later history, with
    the time of the first transaction. *)
Theorem C122_refuted : accepted python unmarked /\ fst (parse (u "con_x") python true unmarked comp0) = Ok unmarked' /\
  In (import_as 1 "con_y" "__contract__") (nodes unmarked') /\ (exists d, In d (nodes unmarked') /\ kind_of d = "FunctionDef" /\ has_field d "name" (Ident (u "__name__"))) /\ In (import_at 8 "h5py") (nodes unmarked') /\
  (forall env body, unmarked_code (u "con_x") = Some body -> lets_through (fun _ => false) (scope_of env body) (u "h5py") = true) /\
  (forall h, Forall (fun t => by_def_or_import (fst (fst t)) /\ ~ binds (u "__name__") (snd (fst t))) h ->
     exists s, module_of (u "con_x") (modules (history ((unmarked_code, at_time 1, [u "con_y"; u "con_x"]) :: h) nothing_loaded)) = Some s /\ get (u "now") s = Some (Given (VInt 1))).
Proof.
  split; [apply (fine_ok unmarked); vm_compute; reflexivity|]. split; [vm_compute; reflexivity|]. split; [vm_compute; auto 60|].
  split.
  { exists (def_at 3 "__name__" none_args [pass_at 4] [the_call None (name_at 2 "__export") (Items [text (u "con_x")]) (Items [])] Absent).
    split; [vm_compute; auto 60|]. split; reflexivity. }
  split; [vm_compute; auto 60|]. split.
  - intros env body E. vm_compute in E. injection E as <-. unfold lets_through, scope_of. rewrite get_update. reflexivity.
  - intros h H. exists (scope_of (at_time 1) [(u "__contract__", Module (u "con_y")); (u "__name__", Function 1); (u "f", Function 2)]). split; [|vm_compute; reflexivity].
    unfold history. cbn [fold_left fst snd]. apply (C122_stays h H); [vm_compute; reflexivity|reflexivity].
Qed.
Example C122_example : nameless (fun n => if str_eqb n (u "con_y") then Some [(u "g", Function 3)] else None) (at_time 1) /\ by_def_or_import unmarked_code /\ ~ binds (u "__name__") (at_time 5) /\
  last_of (u "__name__") [(u "__name__", VStr (u "con_z"))] = Some (VStr (u "con_z")) /\
  get (u "hashlib") (scope_of (at_time 1) [(u "g", Function 3)]) = Some (Library "hashlib") /\ get (u "hashlib") (scope_of [(u "hashlib", VInt 1)] []) = Some (Given (VInt 1)).
Proof.
  split; [|split; [|split; [|split; [|split]; vm_compute; reflexivity]]].
  - split; [intros [v [K|[]]]; vm_compute in K; discriminate K|]. intros n body E. destruct (str_eqb n (u "con_y")); [|discriminate E]. injection E as <-. intros [v [K|[]]]. vm_compute in K. discriminate K.
  - intros n body v E I. unfold unmarked_code in E. destruct (str_eqb n (u "con_x")); [|destruct (str_eqb n (u "con_y")); [|discriminate E]]; injection E as <-.
    + destruct I as [I|[I|[I|[]]]]; apply (f_equal snd) in I; cbn [snd] in I; subst v; [exists 0; right; eexists; reflexivity|exists 1; left; reflexivity|exists 2; left; reflexivity].
    + destruct I as [I|[]]; apply (f_equal snd) in I; cbn [snd] in I; subst v. exists 3. left. reflexivity.
  - intros [v [K|[]]]. vm_compute in K. discriminate K.
Qed.
