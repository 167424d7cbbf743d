# Formal model of xian-contracting in Rocq (Coq 8.16.1)

Sections: 1 trusted base, 2 layout, 3 what is modelled and what is not, 4 every property: how it is
stated and proved, 5 findings (properties the code violates), 6 how to check, 7 tests of the theorems.

## 1. Trusted base

* Coq's kernel (8.16.1), `coqc`/`coqchk`.
* Axioms: none.  `Properties/Assumptions.v` (generated from `MANIFEST.json`) prints the assumptions of
  every theorem named there; all answers are "Closed under the global context".  `coqchk` lists
  `Coq.ssr.ssrunder.Under_rel.*` for the whole library: these are opaque module fields of the ssreflect files
  that the standard library loads (through `Lia`/`List`), no theorem uses them.
* Only the standard library is used (`List`, `ZArith`, `NArith`, `QArith`-free, `Lia`, `Bool`, `String`, `Permutation`, `Sorting`).
* The reading of the Python source: every model definition cites file and lines.
* The reading of CPython 3.11, `decimal`, `datetime`, `json`, `ast`, h5py, cachetools, contextlib behaviour
  that the code relies on; each is encoded in a definition whose comment says so.  In particular:
  * a call of h5py is atomic, threads of one process that open one file share its state, opening a file for
    writing may fail with OSError while a reader has it open, one path per file, one process (Model/Locks.v);
  * cachetools.TTLCache: an entry may disappear at any read (expiry and eviction are nondeterministic steps of histories);
  * `inner` of contextlib.ContextDecorator has the free variables func, self in this order (Model/Interface.v);
  * Python iterates over sets in some order given by a parameter (`py_ord`, `l_ord`): theorems hold for every order.
* Parameters, over which every theorem quantifies (record `lang` in Model/Exec.v, `pyenv` in Model/Linter.v): the
  compiler's text output, marshal, the island-lower test of str, the standard library's modules, the random generator,
  the set of Python's builtins and modules, set orders.  They are fields of records, not axioms.

## 2. Layout (rocq/theories)

| directory | content |
|---|---|
| `Model/` | executable Gallina model; no proofs |
| `Spec/` | small independent specifications used in property statements: `DecSpec` (whole units of 10^-30), `TimeSpec` (day counting), `EncSpec` (storable values, sameness), `DriverSpec`, `ReachSpec` (histories), `OrmSpec`, `ExecSpec` (log of what code did, decorated code, ...), `SubmitSpec`, `SubmissionSpec`, `DetSpec`, `LintSpec`, `CompSpec`, `LockSpec`, `ClientSpec`, `ClientAttrSpec`, `InterfaceSpec`, `DefaultSpec`, `DrySpec`, `StampSpec`, `BatchSpec`, `IsolationSpec` (worlds in which other code does not touch a contract), `TokenSpec` (a token contract and its supply) |
| `Proofs/` | lemmas: `BaseFacts`, `Dec*`, `Time*`, `Json/Parse/EncFacts*` (printer-parser inversion), `DiskFacts`, `DriverFacts`, `ReachFacts`, `OrmFacts`, `ExecFacts` (the one induction over behaviours), `ExecRel`, `DrvRel`, `PhaseRel`, `LogFacts`, `MeterFacts`, `TxFacts`, `CtxFacts`, `HostFacts`, `SubmitFacts`, `CommitFacts`, `SimFacts` (two runs), `LintFacts`, `CompFacts`, `WalkFacts`, `LockFacts` |
| `Properties/` | the theorems, with a non-vacuity `Example` beside each; `Demo` is a small world for examples and counterexamples; `Assumptions` prints what each theorem rests on |

## 3. What is modelled

| source | model | left out |
|---|---|---|
| storage/driver.py | Model/Driver.v | creation of directories |
| storage/hdf5.py | Model/Hdf5.v (one thread), Model/Locks.v (threads, cut at every h5py and lock call) | HDF5 internals, other processes, signals |
| storage/encoder.py and json | Model/Value.v, Model/Encoder.v: text level, `dumps`, `loads`, `convert`, `convert_dict`, `as_object` | floats are their repr text |
| storage/orm.py, stdlib/bridge/orm.py | Model/Orm.v | object identity of mutable values: values are immutable here, which C99 justifies for code that does not change stored objects in place; Model/Heap.v is the driver (get, set, commit, hard_apply, rollback, flush_cache) and the executor's copies over references; Model/HeapDefaults.v adds Variable.get and Hash._get with default objects; Model/EventSchema.v has LogEvent over references to its params; Model/IndexText.v has the texts of dates and durations (other objects: any text) |
| storage/contract.py, contracts/submission.s.py | Model/Exec.v (`submit_prog`, `submission_modul`) | the text of compile output is a parameter here, modelled in Model/Compiler.v |
| stdlib/bridge/decimal.py and decimal | Model/Dec.v: triples (sign, coefficient, exponent), prec 60 ROUND_FLOOR ; Model/DecMore.v: `round`, the result of `**`, the context of other threads; Model/DecOps.v: operator dispatch for operands of every type | the algorithm of `**` |
| stdlib/bridge/time.py and datetime | Model/Time.v: proleptic Gregorian ordinals; Model/TimeOps.v: operator dispatch; Model/DateObject.v: a date as an object with attributes; Model/TimeText.v: str, strptime with %Y %m %d %H %M %S %f %% (compared with CPython 3.11 on 3000 random cases) | time zones (not offered) |
| stdlib/bridge/access.py, execution/runtime.py, execution/tracer.py | Model/Runtime.v, Model/Exec.v | the real line table of the tracer: a line event carries its cost; RSS is part of the event |
| stdlib/bridge/imports.py, execution/module.py | Model/Exec.v (imports), Model/Imports.v (importlib with dotted names), Model/Interface.v (`enforce_interface`), Model/OwnerOf.v (owner_of), Model/Attributes.v (assignments to attributes of modules and of the library), Model/Scope.v (the names of a loaded contract) | namespace packages; attribute assignment in Model/Exec.v |
| stdlib/bridge/random.py | Model/Exec.v: seed text, seeded flag; Model/DecMore.v: getrandbits; Model/Random.v: randrange, randint, choice, choices, shuffle of Lib/random.py | the generator (a parameter, an arbitrary source) |
| stdlib/bridge/crypto.py | Model/Exec.v `PGuard`: the bare except around traced lines; Model/Hashing.v: key_is_valid, verify | the cryptography |
| stdlib/bridge/hashing.py | Model/Hashing.v: bytes.fromhex, str.encode, the choice between them | SHA3/SHA256 (parameters: functions of bytes) |
| execution/executor.py | Model/Executor.v, Model/Reports.v (the dicts shared with the caller) | float formatting of logs |
| compilation/*.py | Model/Ast.v (rose trees with line numbers), Linter.v, Compiler.v (with parser.py) | `ast.parse`, `astor`: theorems are about every tree, also those no source has |
| client.py | Model/Client.v, Model/ClientFuncs.v, Model/ClientAttrs.v, Model/ClientObject.v (contract objects), Model/Process.v (several clients), Model/ClientSubmit.v (submit), Model/ClientLint.v (lint, compile), Model/ClientAnswer.v (stamps, return_full_output), Model/Closure.v (functions as contracts) | inspect, autopep8, astor |

Contract code is an arbitrary behaviour: a well-founded tree of traced lines, library calls, imports and
calls, each depending on the earlier answers (Model/Exec.v `prog`).  Every theorem about execution quantifies over all such
behaviours, so over more than Python source can express; contract code has no try statement (the linter
rejects it, C53; `try … except*`, which it accepts, has no printer in astor, so it cannot get into a submitted contract), so an exception ends the behaviour, except inside crypto.verify/key_is_valid.

Not modelled at all: the CPython evaluator (contract code that replaces functions of the library or of other contracts only in Model/Attributes.v, C121), cryptography and hash functions, floating point arithmetic, wall-clock time, memory use, logging.

## 4. Every property

Shapes: (R) refinement to an abstract specification; (I) invariant, by induction over histories, behaviours, trees or schedules;
(L) law or round trip for all values; (S) simulation of two runs; (X) false of the code: a `_refuted` theorem with a witness or a
universally quantified failure, beside the strongest true variant (`_partial`).

| id | shape | what is proved, how |
|---|---|---|
| C01 | R, X | induction over histories of gets, sets, deletes of other keys, listings, expiry; refuted for bypass_cache |
| C02 | X | for every key with a cached or durable value a delete is invisible (`find` treats a pending None as no write) |
| C03 | R | the disk after commit equals the disk before overlaid with the pending writes, by induction over the pending list |
| C04 | R | rollback() empties cache and pending writes: reads are those of a new driver on the same disk |
| C05 | X | invariant of all histories: the delta queue that rollback(nanos) reads is empty, so it changes nothing |
| C06 | R | as C03 with the block number |
| C07 | I | over every prefix of the attribute updates |
| C08 | X | one key: proved; two keys: refuted; also a commit that raises halfway |
| C09 | L, X | key to (file, group) is injective for names free of ':', '.', '/' and non-empty |
| C10 | R, X | listing equals the live pending and cached entries; after a commit nothing is listed, for every state |
| C11 | R, X | clear touches only entries under the hash's prefix; durable entries survive |
| C12 | I, X | coherence of cache and disk is kept by every history, for values that survive the codec |
| C13, C14 | L | printer/parser inversion for the JSON text; exact set of values that survive |
| C15-C17 | L, X | induction over values |
| C18-C24 | L, X | against integer fixed-point arithmetic (Spec/DecSpec.v) |
| C25-C27 | L, X | against counting days from 1 January 1 (Spec/TimeSpec.v) |
| C28-C31 | L, I | key validation, injectivity of key tuples, map laws |
| C32 | I, X | induction over the tree; refuted: an inline `Hash(contract=..., name=...)` |
| C33-C35 | I, X | over all calls of the ORM |
| C36-C39 | I, X | induction over call trees with an explicit specification of the expected context |
| C40-C42 | I, X | the tracer as an observer of all behaviours |
| C43-C49 | I, X | phases of `execute`; behaviours related to their log |
| C50 | S, X | simulation of two machines that read the same, for behaviours, transactions, histories |
| C51, C52, C66 | I, X | which code is reached, by induction over behaviours |
| C53-C57 | I, X | the linter is one pass over all nodes: accepted iff no node complains |
| C58-C60, C73, C74 | I, X | clause-by-clause relation between source and compiled tree (Spec/CompSpec.v) |
| C61-C64 | I, X | entries of a contract over histories of transactions, commits |
| C65, C76-C80 | R, X | the client's methods |
| C67 | R, X | exact condition of acceptance and of raising |
| C68-C70 | I, L, X | seeded flag; seed text |
| C71, C72, C75 | I, X | invariant over all schedules of any number of threads: the disk is that of the serial execution in lock order |
| C81-C83 | I, X | hexadecimal and UTF-8 as relations (Spec/HashSpec.v); the hash function and the signature check are arbitrary functions |
| C84-C86 | L, X | binary digits; units; the same algorithms with 28 digits |
| C87 | R, X | what functools.partial and the call pass on |
| C88 | I, X | the linter's check of one assignment, for every node |
| C89-C91 | I, X | every directory the driver can leave (Spec/DumpSpec.v) has only keys of one form; listing is then exact |
| C92 | I, X | over the keys that are listed |
| C93 | I, X | what reading records, along every behaviour; accesses are read off the log (Spec/ReadsSpec.v) |
| C94 | L, X | exact arithmetic of the check; phases of `execute` |
| C95 | I, X | the tracer along every behaviour, also one that raises |
| C96 | L, X | Python's operator dispatch over all pairs of values; meaning by instants and totals (Spec/TimeOpsSpec.v) |
| C97 | I | any source of draws; Fisher-Yates inverted by induction; rounding of the float product bounded in integers |
| C98 | I | relation between format, text and numbers (Spec/TimeTextSpec.v); the backtracking matcher is sound for it and finds full-width text |
| C99 | I, R | driver over a heap of references (Model/Heap.v); simulation by the driver over values while no stored object is changed in place; counterexample histories otherwise |
| C100 | I | the deep copy lies in a region of the heap that no reference of the code reaches |
| C101 | I, R | operator dispatch on both sides (Model/DecOps.v) over the decimal arithmetic of C19-C24; spec on integers of units (Spec/DecOpsSpec.v) |
| C102 | I, X | importlib with dotted names over any installation (Model/Imports.v); induction on the recursion limit; the linter accepts every such tree |
| C103 | D, R | __getattr__ over the client model (Model/ClientAttrs.v); what listings contain (C10) and what a commit leaves |
| C104 | I | rely-guarantee over behaviours: one induction for all code, parametrised by the functions of the contract and the relation (Spec/IsolationSpec.v, Proofs/IsoFacts.v), then over histories |
| C105 | I | what every step adds to sys.modules is in loaded_modules (Proofs/ModFacts.v) |
| C106 | I, R | C104 with the relation "same supply"; the arithmetic is C19 and C23 (Proofs/TokenFacts.v) |
| C107 | X, L | the object as a dict of attributes (Model/ClientObject.v), filled function by function; induction over the functions |
| C108 | S, X | several clients over one runtime (Model/Process.v); the simulation of C75 between the runs with and without the others |
| C109 | I, X | the reads dict gets an identity (Model/Reports.v); induction over later uses |
| C110 | L, X | the caller's dict after the loop of executor.py 122-124 |
| C111 | S, X | as C99, with reads that fall back to a default object (Model/HeapDefaults.v); the default objects keep their values as long as nothing reachable from them is changed |
| C112 | X | inversion of a successful execute down to the body of submit_contract; the log says which steps may have written the entries in between (`written_once`), so the final writes are those of the last step |
| C113 | X | simulation of C50 between the machine before and the one after dry runs and rollback; idleness (C105, C37) of the latter |
| C114 | S | induction over behaviours (ExecFacts): a computation that ends within two limits does the same under both (SupplyFacts); then through the phases of a transaction |
| C115 | S, X | simulation of a run that saves anywhere by the run that never saves (BatchFacts): a key is pending in both with the same value, or its file holds the stored form of what the other run has pending |
| C116 | L, X | the store as a map: the deleted file answers no key, other files answer as before |
| C117 | I, X | induction over trees: no step of the compiler's visit raises on a tree every node of which the linter has checked |
| C118 | R, X | the call is the transaction asked for; the effects of a failed one by C45 |
| C119 | I, X | from C38 (the check) and the invariant of C61 over histories |
| C120 | R, I, X | the tracer over every sequence of lines and writes refines spending the contract's own charges against the limit |
| C121 | X, I, L | module and library objects (Model/Attributes.v) over every history of transactions; a concrete contract for the linter and the compiler |
| C122 | I, X, L | the dict a contract is executed in (Model/Scope.v): lookups after updates; induction over histories; a concrete contract for the linter and the compiler |
| C123 | I, X | a date as an object of a wrapped datetime and seven attributes (Model/DateObject.v); induction over assignments; the encoder's round trip; a concrete contract for the linter and the compiler |
| C124 | L | client.submit, lint and compile of a function (Model/Closure.v), as equations between computations, with inspect, autopep8, ast.parse, astor as parameters |
| C125 | I, X | LogEvent objects over references to dicts (Model/EventSchema.v); induction over statements; a concrete contract for the linter and the compiler |
| C126 | L, X | the text of dates and durations (Model/IndexText.v) in Model/Orm.v; the decimal text read back gives the value; constructed decimals have stripped coefficients |
| C127 | L, X | the keys of Model/Client.v and Model/Orm.v are equal; one write, one read |

Exactly what each theorem covers is in the `note` of its claim in MANIFEST.json.

## 5. Findings

Each has a `_refuted` theorem (in parentheses) unless marked (reading), which means found by reading and outside the model.

Execution
* An undecorated public function (`f = helper` at top level passes the linter) runs under its caller's context: callees see the wrong caller, events are
  reported as the caller's (C36_C38_undecorated_refuted, C39_refuted).
* A refused owner check leaves its frame on the context stack; if that happens below an undecorated entry function or in top-level code, every later transaction of the process
  fails (C37_refuted, C37_top_level_refuted, C37_stuck_forever).
* Top-level code of the called contract runs with Python's own import and unmetered (C66_top_level_refuted).  Top-level code of an imported contract runs under the importer's context.
* `raise Exception.mro()[1]('x')` raises a BaseException out of execute: writes stay pending, the random seed survives (C45_base_exception_refuted, C68_refuted).
* An error while the fee is computed raises out of execute with the writes pending (C45_fee_error_refuted).
* crypto.verify and crypto.key_is_valid swallow the tracer's stop: the rest of the transaction is free (C42_metering_switched_off_refuted).
* The sender can spend the balance first: the fee is clamped (C44_refuted); a sender who was not admitted is charged (C44_not_admitted_charged_refuted).
* Explicit driver: after a failure the executor's own pending writes are put into it (C46); a failing auto-commit drops earlier uncommitted writes (C47).
* Hash.clear is not reported (C48_clear_refuted).  `execute('os', 'system')` calls Python's os (C52_refuted).  importlib of a stored contract named like a loaded module gives that module (C66_shadow_refuted).
* Hash.all depends on what is cached: nodes with equal storage differ (C50_refuted, C50_pending_refuted).
* Random seeds of different blocks can coincide (C70_refuted).
* LogEvent keeps the params dict of the contract without copying; kwargs are changed in the caller; lists read from storage are mutable and change without metering; the tracer aborts by RSS of the process; `decimal('1e-99999999999')` (reading).

Submission
* A constructor runs with ctx.this = submission and caller = signer: it can submit more contracts, also under the very name being submitted (C62_nested_refuted, C62_replaced_refuted).
* Names: 'con_a:x' is stored over con_a (C61_alias_refuted); 'con_a/b' makes commit raise and lose later writes (C63_refuted).  `Variable(contract='con_a', name='__code__')` overwrites code (C61_foreign_write_refuted).
* Top-level code can define `now` and forge the submission time (C112_time_refuted).
* Without `now` in the environment the submission time is the time the library was imported, different on every node (C112_import_time_refuted).

Storage
* '/' in names and keys aliases ':' (C09_slash_refuted); listings miss committed entries and prefer stale cached values (C10); durable entries survive Hash.clear (C11); a delete is invisible (C02); rollback(nanos) never does anything (C05);
  commit is not atomic (C08); tuples become lists (C12_refuted, C14); an unlocked reader sees a key missing in the middle of a write (C72_refuted).

Compilation
* Only the deny list is used (C54_refuted): try/except* accepted (C53_except_star_refuted), `import os.path` accepted (C53_submodule_refuted), imports and functions nested in `if` accepted (C56_refuted), keyword-only, position-only and
  starred arguments need no annotation (C57_refuted), return annotations are accepted, `Hash(contract='currency', name='balances')` inside a function accepted (C32_refuted).
* A function called `__export` takes over the export decorator (C58_refuted); an argument called like a private function changes meaning (C59_refuted); names of a failed compilation leak into the next (C73_refuted).
* methods_for_contract misses exported `__x` and keyword-only arguments (C60_refuted); variables_for_contract stops at the first function and raises on `x = a.b()` (C74_refuted).

Client
* run_private_function leaves bypass_privates on after an exception (C76); `now` freezes at the first call, and the default environment is shared by all clients (C77); quick_write commits everything pending (C78);
  get_contracts misses committed contracts and lists others (C79); set_submission_contract cannot replace a committed submission contract (C65).

Interfaces
* Names of the standard library and of the environment satisfy any Func requirement; a list of arguments never matches; a Func requirement that names a variable raises AttributeError (C67_refuted).

Numbers and dates
* Negative floats with a negative exponent in their repr do not convert (C22); ints outside the range are clamped before comparing (C23); a clamped transfer loses money (C20_clamped_transfer_refuted); the difference of datetimes drops microseconds (C27);
  Timedelta * Timedelta is not a product (C26_product_refuted).

Hashing and cryptography
* A text and the hexadecimal form of its bytes have the same hash, upper and lower case digits as well (C81_refuted, C81_case_refuted); key_is_valid accepts '0x...', signs, underscores, blanks (C82_refuted);
  crypto.py imports only `nacl`, so verify raises AttributeError unless other code imported nacl.signing (C83_refuted).

Further
* round(x, n) rounds down and returns a plain Decimal without limits (C85_refuted, C18_round_refuted); random.getrandbits(0) raises (C84_refuted).
* decimal.setcontext acts on one thread: in another one every decimal from 0.01 on raises InvalidOperation when read, and a metered execute raises before it sets the context (C86_refuted).
* Contract objects of the client pass None for arguments not given, so declared defaults never apply; arguments called now, environment, metering are swallowed; a contract with an argument called signer, func, ... cannot
  be used with get_contract (C87_default_refuted, C87_clash_refuted).
* x: Any = Hash() passes the linter and is compiled without contract and name; h = ForeignHash is accepted (C88).
* get_all_contract_state lists deleted entries and hashes with None, misses the root group, mixes in pending values (C89); get_run_state misses the entries of hashes, and everything if storage_home is relative (C90);
  keys_from_disk gives names of variables without the contract (C91).
* delete_contract leaves everything that is committed and not cached, deletes pending entries of contracts with a longer name, and may create an empty contract file (C92).
* `reads` in the output of execute accumulates over transactions until the next commit or flush: later transactions report keys they never touched, with old values; a key that did not exist is reported with the value the
  transaction itself wrote; with auto_commit `reads` is empty; keys seen by listing a hash are missing (C93).
* execute imports the called contract before it starts the tracer: its top level is neither metered nor limited, at every transaction (modules are unloaded after each). A top level loop that depends on stored state or
  on `now` passes the submission and later hangs every transaction that calls the contract (C95_loading_refuted).
* date - duration is a TypeError for every date and duration; duration - date is the earlier date; 2 * duration is a TypeError; date == None raises, so `d in l` raises if another type comes first (C96).
* str(date) has no fraction if the microseconds are 0: no single one of the two natural formats reads every str(date) back; a repeated directive raises re.error (C98).
* `x = S['k']; x.append(1)` changes the store without a write: nothing is charged, nothing is recorded in the transaction's writes, the change survives a failed transaction when the list came from the cache, and it is lost when the cache entry expires, so nodes with the same history can disagree. `l = []; S['k'] = l; l.append(big)` stores any amount of data for the price of `[]` and beyond the 128 KB limit (C99).
* `decimal('1') == True`, `x + True` and `x < -1e-05` raise InvalidOperation: operands pass through `str`, and neither 'True' nor the text neg_sci_not makes of a small negative float is a number. `x == some_date` raises TypeError instead of being False (C101).
* `import lib2to3.__main__.x` passes the linter (only whole names are looked up) and restricted_import imports the parent with Python's own import to find a spec: the body of any Python module runs, and SystemExit is not an Exception, so it ends the node. `if now: import os.path` at the top level passes too; guarded so that it does nothing at submission, it gives the contract `os` when the contract is called, because the called contract is loaded before imports are restricted (C102, C66).
* After any commit (and quick_write commits) a contract object has no storage attributes: `contract.balances` raises AttributeError although quick_read finds the balances (C103).
* A contract whose functions are called `now`, `environment`, `name`, `executor` or `signer` cannot be used through client.get_contract (C107).
* `ContractingClient(environment={})`: the default is shared by all clients, and `_abstract_function_call` writes the time into it; after the first call of any client, all of them are stuck at that time (C108).
* `output['reads']` is not a copy: the caller's report is emptied by the commit that follows (C109). `execute` replaces floats in the caller's kwargs (C110).
* `Hash(default_value=[])`: the default list is handed out by reference, so entries of a Hash run into each other (C111).
* A dry run that raises out of execute leaves its environment and modules for the next transaction; one that leaves a context frame stops the node (C113).
* The same work is reported, and charged, with up to 5 stamps less when the limit is set to what it really costs (C114).
* Whether a block is committed as a whole or transaction by transaction can be observed: a delete of a stored key shows only after the commit, a tuple becomes a list, and a key with an extra colon (`con_a.h:x:`) starts to answer for another (`con_a.h:x`) (C115).
* `flush_file` does not touch pending or cached values: the flushed contract still reads through the same Driver, and a pending value is stored again by the next commit (C116).
* A stored contract answers to every `name:anything`: execute("con_a:z", ...) runs con_a with `ctx.caller` = "con_a:z", neither the sender nor a contract (C36).
* lint accepts `x['a'] = Variable()` and the compiler raises AttributeError on it (C117).
* With return_full_output=True a failed call raises TypeError instead of returning its report; with Executor(production=True) every call through a contract object raises AttributeError after it was executed (C118).
* Any contract can seize any other: Variable(contract='con_a', name='__owner__') is accepted, and assigning to it makes anyone the owner (C119).
* An event names the signer of the transaction that loaded the module; after an execution that raised, that is the signer of an earlier transaction (C35_signer_refuted).
* Lines of library code and the memory of the whole process count towards the limits that stop a transaction, so whether it succeeds depends on the cache and on what else the process does (C120).
* Contract code may assign to attributes of other contracts and of the standard library: `con_token.transfer = other` replaces the function for all other contracts until the end of the transaction, `hashlib.sha3 = other` or `Variable.get = other` for all contracts until the process ends (C121). Theorems about the executor (Model/Exec.v) assume contract code that does not do this, and that does not bind `__contract__` and `__name__` (C122).
* `import con_y as __contract__` (or `@export def __contract__()`) passes the linter and removes the mark restricted_import looks for: the functions of that contract can import every installed Python module. `@export def __name__()` makes the loader remember the module under a function instead of its name, so it is never unloaded: it keeps the `now` of its first transaction, and whatever its top-level lists and dicts hold, for the life of the process (C122).
* Values of the environment replace objects of the standard library of the same name in all contracts (C122_meaning).
* The attributes of a date can be assigned to by contract code (`now.year = 1970`, `now.month = 13`); comparisons, differences and the text ignore that, storage does not: the date is stored as another, or as a text that raises ValueError at every read of the key (C123). All contracts share the object `now`, in one transaction and in the later ones of a client, so one contract's `now.month = 13` makes unreadable what the others store as `now`.
* submit(f), lint(f), compile(f) of a Python function drop its parameters, defaults, decorators and the variables it closes over without a warning (C124_nothing_else): the contract is accepted and raises NameError when it runs.
* Sets of texts (`list({'a', 'b'})`: order by PYTHONHASHSEED) and `str(f)` of a function (its address) pass the linter and the compiler: their values differ between processes, so nodes can disagree on a transaction (C50_language_refuted shows the acceptance; the evaluation is CPython's).
* LogEvent keeps the dict it is given: a contract (or, if the dict is a public name of its module, another contract that imports it) can change the dict after it was checked and log events with more than three indexed arguments or with values of other types, lists included (C125).
* A hash is indexed by the text of its key: equal numbers can be different entries (`h[decimal('1000')]` is `h['1E+3']`, `h[x - x]` is `h['-0']`), a date or a duration can never be an index (its text contains ':'), and a decimal is refused or not depending on whether its text happens to contain '.' (C126).
* The client's get_var and set_var do not check the parts of an index as hashes do: `['a:b']` is the entry contracts call `['a', 'b']` (C127).
* The token of README.md cannot work as written: `allowances` is not declared, `approve` adds to `balances[caller, to]`, `balances` has no default so the first transfer to a new account is `None += ...` (TypeError). With the default added but amounts left as floats, `int -= float` gives float balances, which lose money; so C106 is about the repaired contract.
* If `execute` raises while taking the fee (contract code left a str as the balance), nothing is cleaned up: the contract modules stay in sys.modules (C105_raised_refuted).
* ContractingDecimal defines __eq__ without __hash__: decimals cannot be dict keys or set members (reading).

## 6. How to check

`cd rocq && coq_makefile -f _CoqProject -o Makefile && make -j4`; `vcheck`.  `tools/gen_properties.py`, `tools/gen_manifest.py`,
`tools/gen_assumptions.py` write properties.jsonl, MANIFEST.json and Properties/Assumptions.v.

## 7. Tests of the theorems

`tools/mutate.py` applies one wrong edit to a definition of the model in a scratch copy, rebuilds, and writes to `seeded/LOG.jsonl` what failed.
Where a claim became false and nothing failed, the theorem was tightened (field `tightened`).
