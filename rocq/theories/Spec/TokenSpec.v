(** * The supply of a token *)
From Verif Require Import Model.Base Model.State Model.Dec Model.Value Model.Encoder Model.Hdf5 Model.Runtime Model.Driver Model.Orm Model.Exec Model.Executor.
From Verif Require Import Spec.DecSpec Spec.ExecSpec.
Local Open Scope Z_scope.

(** The key of balances[a] of contract [c] *)
Definition account_key (c a : pystr) : pystr := c ++ u "." ++ u "balances:" ++ a.
(** Account [a] holds [n] units of 10^-30 (nothing stored: 0) *)
Definition holds (f : pystr -> result pyval) (c a : pystr) (n : Z) : Prop := exists v, f (account_key c a) = Ok v /\ amount v n.
(** The balances add up to [S]: a list of different accounts, none of them negative, with that sum; every other account is empty.
    (Names of accounts have no dot.) *)
Definition sum_of (l : list (pystr * Z)) : Z := fold_right (fun x n => snd x + n) 0 l.
Definition supply (c : pystr) (f : pystr -> result pyval) (S : Z) : Prop :=
  exists l : list (pystr * Z), NoDup (map fst l) /\ Forall (fun x => 0 <= snd x /\ ~ In (ch ".") (fst x) /\ holds f c (fst x) (snd x)) l /\
    (forall a, ~ In (ch ".") a -> ~ In a (map fst l) -> holds f c a 0) /\ sum_of l = S.

(** ** A token contract: that of README.md 20-62 without mint, and with what it needs to work (a default balance, a declared
    [allowances], to which approve adds, and amounts made decimals):
<<
    balances = Hash(default_value=0)
    allowances = Hash(default_value=0)

    @export
    def transfer(amount: float, to: str):
        amount = decimal(str(amount))
        assert amount > 0, 'Cannot send negative balances.'
        assert balances[ctx.caller] >= amount, 'Not enough coins to send.'
        balances[ctx.caller] -= amount
        balances[to] += amount

    @export
    def approve(amount: float, to: str):
        amount = decimal(str(amount))
        assert amount > 0, 'Cannot send negative balances.'
        allowances[ctx.caller, to] += amount

    @export
    def transfer_from(amount: float, to: str, main_account: str):
        amount = decimal(str(amount))
        assert amount > 0, 'Cannot send negative balances!'
        assert allowances[main_account, ctx.caller] >= amount, 'You approved less'
        assert balances[main_account] >= amount, 'Not enough tokens to send!'
        allowances[main_account, ctx.caller] -= amount
        balances[main_account] -= amount
        balances[to] += amount
>> *)
From Verif Require Import Model.DecOps Model.TimeOps.
Section Token.
  Variables (L : lang) (c : pystr) (ln : nat -> line_event).
  Definition balances : hash := hash_decl c (u "balances") (VInt 0).
  Definition allowances : hash := hash_decl c (u "allowances") (VInt 0).
  (** hash[x] for an argument [x]: a tuple is several keys *)
  Definition key_of (v : pyval) : hkey := match v with VTuple l => HTup (map PVal l) | _ => HOne (PVal v) end.
  Definition key_pair (a b : pyval) : hkey := HTup [PVal a; PVal b].
  (** expressions with a decimal on the right *)
  Definition at_least (b : pyval) (d : fd) : result bool := match b with VDec x => dec_cmp OGe x (VDec d) | _ => cmp_dec OGe b d end.
  Definition with_dec (o : arith) (b : pyval) (d : fd) : result pyval :=
    match b with VDec x => dec_left o x (VDec d) | _ => match dec_right o b d with Some r => r | None => Err EType end end.
  Definition need {A} (r : result A) (k : A -> prog) : prog := match r with Ok a => k a | Err e => PRaise e end.
  Definition assert_ (r : result bool) (k : prog) : prog := need r (fun b => if b then k else PRaise EAssertion).
  (** hash[k] op= d *)
  Definition update (h : hash) (k : hkey) (o : arith) (d : fd) (rest : prog) : prog :=
    PAct (ActHashGet h k) (fun b => need (with_dec o b d) (fun x => PAct (ActHashSet h k x) (fun _ => rest))).
  Definition check_at_least (h : hash) (k : hkey) (d : fd) (rest : prog) : prog :=
    PAct (ActHashGet h k) (fun b => assert_ (at_least b d) rest).
  (** amount = decimal(str(amount)); assert amount > 0 *)
  Definition positive (v : pyval) (k : fd -> prog) : prog :=
    PLine (ln 0) (need (do s <- py_str (l_ostr L) v; cd_of_str s) (fun d => PLine (ln 1) (assert_ (dec_cmp OGt d (VInt 0)) (k d)))).
  Definition transfer (kw : dict pyval) : prog :=
    match dget (u "amount") kw, dget (u "to") kw with
    | Some a, Some to => positive a (fun d => PCtx (fun cs => let me := key_of (of_name (c_caller cs)) in
        PLine (ln 2) (check_at_least balances me d (PLine (ln 3) (update balances me ASub d (PLine (ln 4) (update balances (key_of to) AAdd d (PRet VNone))))))))
    | _, _ => PRaise EType
    end.
  Definition approve (kw : dict pyval) : prog :=
    match dget (u "amount") kw, dget (u "to") kw with
    | Some a, Some to => positive a (fun d => PCtx (fun cs => PLine (ln 2) (update allowances (key_pair (of_name (c_caller cs)) to) AAdd d (PRet VNone))))
    | _, _ => PRaise EType
    end.
  Definition transfer_from (kw : dict pyval) : prog :=
    match dget (u "amount") kw, dget (u "to") kw, dget (u "main_account") kw with
    | Some a, Some to, Some main => positive a (fun d => PCtx (fun cs => let al := key_pair main (of_name (c_caller cs)) in
        PLine (ln 2) (check_at_least allowances al d (PLine (ln 3) (check_at_least balances (key_of main) d
          (PLine (ln 4) (update allowances al ASub d (PLine (ln 5) (update balances (key_of main) ASub d (PLine (ln 6) (update balances (key_of to) AAdd d (PRet VNone))))))))))))
    | _, _, _ => PRaise EType
    end.
  Definition token : modul := mkMod (PRet VNone) None
    [(u "transfer", mkFunc (Some c) transfer); (u "approve", mkFunc (Some c) approve); (u "transfer_from", mkFunc (Some c) transfer_from)].
  Definition token_code (p : prog) : Prop := exists kw, p = transfer kw \/ p = approve kw \/ p = transfer_from kw.
End Token.
