#!/usr/bin/env python3
"""Source of properties.jsonl (kept as code so that ids stay unique and ordered)."""
import json, os
P = []
def p(title, statement, quantifier, why, *anchors):
    P.append(dict(id=f"C{len(P)+1:02d}", title=title, statement=statement,
                  quantifier=quantifier, why_tests_cant=why, anchors=list(anchors)))

D='src/contracting/storage/driver.py'; H='src/contracting/storage/hdf5.py'; EN='src/contracting/storage/encoder.py'
O='src/contracting/storage/orm.py'; EX='src/contracting/execution/executor.py'; RT='src/contracting/execution/runtime.py'
TR='src/contracting/execution/tracer.py'; MO='src/contracting/execution/module.py'; LI='src/contracting/compilation/linter.py'
CO='src/contracting/compilation/compiler.py'; PA='src/contracting/compilation/parser.py'; WL='src/contracting/compilation/whitelists.py'
DE='src/contracting/stdlib/bridge/decimal.py'; TI='src/contracting/stdlib/bridge/time.py'; RA='src/contracting/stdlib/bridge/random.py'
IM='src/contracting/stdlib/bridge/imports.py'; AC='src/contracting/stdlib/bridge/access.py'; CT='src/contracting/storage/contract.py'
SU='src/contracting/contracts/submission.s.py'; CL='src/contracting/client.py'; CR='src/contracting/stdlib/bridge/crypto.py'; HA='src/contracting/stdlib/bridge/hashing.py'
K='src/contracting/constants.py'

# ---- storage driver -------------------------------------------------------
p("Read your writes", "On one Driver, after set(k, v) with v not None, every later get(k) returns the stored form of v until k is set again, whatever gets, sets of other keys, deletes of other keys happen in between; in general get returns the last non-None write pending for the key, else the cached value, else the durable one.",
  "all keys, values and finite histories of driver calls on a Driver that does not bypass its cache", "A test fixes one key and a short history; the claim is about every history and every other key touched in between.", f"{D}:Driver.set", f"{D}:Driver.get", f"{D}:Driver.find")
p("A delete is visible at once", "After delete(k) (or set(k, None)) the next get(k) on the same Driver returns None.",
  "all keys and all earlier histories", "The repository's tests only delete keys that were never committed, which is exactly the case that works.", f"{D}:Driver.delete", f"{D}:Driver.find", f"{O}:Variable.set")
p("Commit makes exactly the pending writes durable", "After commit() a fresh Driver on the same directory reads, for every pending key, the decoded form of its last pending value (or nothing if that was a delete), and reads every other key exactly as before; the committing Driver has no pending writes left.",
  "all driver states whose pending keys name different locations, and all keys", "Needs every set of pending keys and all non-pending keys (frame condition).", f"{D}:Driver.commit", f"{D}:Driver.__parse_key", f"{H}:set_value_to_disk", f"{H}:delete")
p("Rollback returns to the last durable state", "After rollback() every get returns what is on disk: no uncommitted write made since the last commit is visible, and the disk itself is unchanged.",
  "all histories of sets, deletes, gets and commits before the rollback, all keys", "Universally quantified over histories and keys.", f"{D}:Driver.rollback")
p("Rollback to a timestamp undoes later blocks", "rollback(nanos) restores, for each key, the value it had before the first hard_apply at or after nanos.",
  "all histories of hard_apply calls with increasing timestamps and all nanos", "Requires a statement over every history of applied blocks; a test would have to hit the right internal queue state.", f"{D}:Driver.rollback", f"{D}:Driver.hard_apply")
p("Hard apply is durable and tagged", "After hard_apply(n) every pending write is durable (a fresh Driver reads its decoded form; deletes read as nothing), each written entry carries block number n, no other key changes, and no pending write remains.",
  "all driver states with an empty delta queue and non-aliasing pending keys, all n", "Frame condition over all keys; all pending sets.", f"{D}:Driver.hard_apply", f"{H}:set")
p("A crash during commit never invents values", "If the process stops after any number of per-key disk updates of a commit, every key's durable value is either its old or its new value, and running the same commit again yields exactly the uninterrupted result.",
  "all crash points between per-key updates, all pending sets", "Crash points cannot be enumerated by unit tests.", f"{D}:Driver.commit", f"{H}:set", f"{H}:delete")
p("Commit is atomic under crashes", "If the process stops inside commit(), the durable state is either the state before or the state after the whole commit.",
  "all crash points, including those inside one key's update", "Crash points cannot be enumerated by unit tests.", f"{D}:Driver.commit", f"{H}:_write_attr_to_file")
p("Different state keys never share storage", "Two different keys that the ORM can produce (contract.variable, contract.hash:k1:...:kn) are stored at different places, so writing one never changes the other.",
  "all pairs of ORM keys", "A collision needs a specific pair of keys; tests cannot enumerate pairs.", f"{D}:Driver.__parse_key", f"{O}:Hash._validate_key", f"{H}:_write_attr_to_file")
p("Listing a prefix is complete", "items(prefix)/keys(prefix)/values(prefix), and Hash.all() built on them, report every live entry under the prefix - pending, cached or committed - and nothing else.",
  "all driver states and prefixes", "The tests only list uncommitted entries; completeness is over all stores and states.", f"{D}:Driver.items", f"{D}:Driver.iter_from_disk", f"{H}:get_groups", f"{O}:Hash.all")
p("Clearing a hash removes all of it", "After Hash.clear() and a commit, every entry of that hash reads as the default value, and no entry of any other hash or variable changed.",
  "all driver states, hashes and keys", "Completeness and frame over all keys; tests never commit before clearing.", f"{O}:Hash.clear", f"{D}:Driver.items", f"{D}:Driver.delete")
p("Reads do not depend on what the cache happens to hold", "The value returned by get(k) is the same whichever entries the time-limited cache has already dropped, so two nodes with the same history read the same value.",
  "all histories and all subsets of expired or evicted cache entries", "Expiry times and eviction are environment-dependent schedules.", f"{D}:Driver.find", f"{D}:Driver.hard_apply", f"{D}:Driver.__init__")

# ---- encoder --------------------------------------------------------------
p("Stored values round-trip", "decode(encode(v)) equals v for every storable value: None, booleans, integers of any size, strings, bytes, decimals, datetimes, timedeltas, and lists and string-keyed dicts of these without reserved keys.",
  "all values of that grammar, any nesting depth and size", "Infinite value space, unbounded nesting.", f"{EN}:encode", f"{EN}:decode", f"{EN}:Encoder.default", f"{EN}:as_object")
p("What the encoding does not preserve", "Outside that grammar the round trip changes the value silently: tuples become lists, non-string dict keys become strings (and may merge), dicts using a reserved key such as __time__ become another type; decode(encode(v)) = v fails exactly for these shapes.",
  "all values", "A characterisation of the full set of non-preserved values.", f"{EN}:encode", f"{EN}:as_object")
p("No raw integer above 8 bytes is stored", "The encoded text of a value contains no bare integer outside the open interval (-2^63, 2^63-1); larger ones are wrapped as strings.",
  "all values of any nesting", "Nesting shapes are unbounded.", f"{EN}:encode_int", f"{EN}:encode_ints_in_dict", f"{EN}:encode")
p("Encoding is deterministic text", "encode(v) is pure ASCII without line breaks and spaces outside strings, so the metered size of a write equals its number of characters, and equal values give equal text.",
  "all encodable values", "Infinite value space.", f"{EN}:encode", f"{EN}:encode_kv", f"{RT}:Runtime.deduct_write")
p("convert_dict agrees with decode", "Converting an already parsed JSON object with convert_dict gives the same Python value as decode does on its text.",
  "all JSON objects", "Infinite space of JSON trees.", f"{EN}:convert_dict", f"{EN}:decode")

# ---- decimals -------------------------------------------------------------
p("Decimals stay on the fixed-point grid and in range", "Every ContractingDecimal ever constructed is a whole multiple of 10^-30, at most 10^29 and greater than -10^30.",
  "all constructor inputs and all sequences of arithmetic operations", "Infinite operand space; rounding corner cases.", f"{DE}:ContractingDecimal.__init__", f"{DE}:fix_precision")
p("Decimal arithmetic is exact fixed point rounded down", "a+b, a-b, a*b and a/b equal the exact mathematical result rounded toward minus infinity to 30 decimals and clamped at 10^29, or raise when the result is -10^30 or less (or on division by zero); no other rounding ever shows.",
  "all pairs of decimals", "Double rounding (60 digits, then 30 decimals) could show only on rare operands.", f"{DE}:ContractingDecimal.__add__", f"{DE}:ContractingDecimal.__sub__", f"{DE}:ContractingDecimal.__mul__", f"{DE}:ContractingDecimal.__truediv__", f"{DE}:CONTEXT")
p("Transfers conserve money", "For balances x, y and amount a, (x-a)+(y+a) = x+y as long as nothing is clamped; moreover (x+a)-a = x.",
  "all decimal balances and amounts", "All operands.", f"{DE}:ContractingDecimal.__add__", f"{DE}:ContractingDecimal.__sub__", f"{DE}:fix_precision")
p("Decimals survive their text form", "ContractingDecimal(str(d)) == d, and the stored form of a decimal decodes to an equal decimal.",
  "all decimals", "Scientific/engineering notation corner cases over all magnitudes.", f"{DE}:ContractingDecimal.__str__", f"{DE}:ContractingDecimal.__init__", f"{EN}:Encoder.default", f"{O}:Hash._get")
p("Every finite number converts to a decimal", "ContractingDecimal(x) succeeds and is x rounded down to 30 decimals, clamped at 10^29, for every int or finite float x greater than -10^30.",
  "all ints and float renderings", "The failing renderings (negative numbers in e-notation) are a thin set.", f"{DE}:neg_sci_not", f"{DE}:ContractingDecimal.__init__")
p("Decimal comparison is the order of the values", "==, <, <=, >, >= between decimals are the total order of their numeric values, and comparisons with an int agree with the int's value.",
  "all pairs of decimals / decimals and ints", "All operands; clamping of the other operand only shows beyond 10^29.", f"{DE}:ContractingDecimal._get_other", f"{DE}:ContractingDecimal.__lt__", f"{DE}:ContractingDecimal.__bool__")
p("Decimal remainder and integer division", "a // b truncates toward zero, a % b has the sign of a, |a % b| < |b| and a = (a // b)*b + a % b whenever neither operation raises.",
  "all decimals a and non-zero b", "All operands.", f"{DE}:ContractingDecimal.__mod__", f"{DE}:ContractingDecimal.__floordiv__")

# ---- time -----------------------------------------------------------------
p("Datetime order and difference agree", "a < b, a == b, a > b is a total order on datetimes; (a + t) - a == t for every timedelta t for which a + t exists, and a + t is later than a exactly when t is positive.",
  "all valid datetimes and all timedeltas", "Calendar arithmetic over 10^4 years.", f"{TI}:Datetime.__add__", f"{TI}:Datetime.__sub__", f"{TI}:Datetime.__lt__")
p("Timedelta arithmetic", "Timedelta + and - are exact on total seconds, are inverse to each other, scaling by an int multiplies total seconds; seconds/minutes/hours/days/weeks are the total floored to that unit; timedelta order is the order of total seconds.",
  "all timedeltas and ints", "All operands incl. negatives.", f"{TI}:Timedelta.__add__", f"{TI}:Timedelta.__sub__", f"{TI}:Timedelta.__mul__", f"{TI}:Timedelta.seconds")
p("Datetime difference loses nothing", "b + (a - b) == a for all datetimes a and b.",
  "all pairs of valid datetimes", "All pairs, including sub-second differences.", f"{TI}:Datetime.__sub__")

# ---- ORM ------------------------------------------------------------------
p("Hash keys are validated", "A hash access succeeds only for at most 16 key parts, none containing ':' or '.', with a joined key of at most 1024 characters; otherwise it raises and neither reads nor writes anything.",
  "all key tuples, all states", "Universal over keys, plus frame on the whole state.", f"{O}:Hash._validate_key", f"{O}:Hash.__setitem__", f"{O}:Hash.__getitem__")
p("Different key tuples are different entries", "Two non-empty tuples of string parts accepted by a hash address the same entry only if they are equal; a write to one never changes what the other reads.",
  "all pairs of accepted key tuples", "Collisions need specific pairs.", f"{O}:Hash._validate_key", f"{O}:Hash._set")
p("A hash behaves like a map with a default", "h[k] = v followed by any writes to other keys and then h[k] returns v; an entry never written returns the default value; reading never changes any entry.",
  "all sequences of hash operations on any number of hashes and variables", "Universal over operation sequences.", f"{O}:Hash", f"{O}:Variable")
p("Contracts' storage is separate by declaration", "Variables and hashes declared by assignment in contracts with different dot-free names, or with different names in the same contract, never address the same key.",
  "all contract names, variable names and key tuples", "All pairs.", f"{O}:Datum", f"{D}:Driver.make_key", f"{CO}:ContractingCompiler.visit_Assign")
p("A contract can only write its own storage", "No code accepted by the linter can write an entry of another contract's variables or hashes.",
  "all accepted contract sources", "Universal over programs.", f"{LI}:Linter.visit_Assign", f"{LI}:Linter.visit_Call", f"{O}:Hash.__setitem__")
p("Foreign variables and hashes are read only", "Every write operation on a ForeignVariable or ForeignHash raises and leaves the whole state unchanged; reads return exactly what the owning contract's variable or hash reads.",
  "all states, keys and values", "Frame over the whole state.", f"{O}:ForeignVariable", f"{O}:ForeignHash")
p("Typed variables only ever hold their type", "If a Variable is declared with a type, set with a value of another type raises and changes nothing; a successful set stores a value of that type or None.",
  "all states, declared types and values", "All values.", f"{O}:Variable.set")
p("Events are well-formed", "A LogEvent can be emitted only with exactly its declared arguments, each of a declared type and at most 1024 UTF-8 bytes; at most three are indexed; the recorded event partitions the arguments into indexed and non-indexed ones and names contract, signer and caller of the running context.",
  "all event declarations and data", "All declarations and data dictionaries.", f"{O}:LogEvent.__init__", f"{O}:LogEvent.write_event")

# ---- runtime --------------------------------------------------------------
p("Call context is right at every call", "Inside every exported function ctx.this is the contract the function belongs to, ctx.signer and ctx.entry are those of the transaction, and ctx.caller is the contract that made the innermost call crossing into this contract (the sender for the entry contract).",
  "all call trees, any depth below the context limit, including re-entrancy", "Universal over call trees.", f"{RT}:Context", f"{AC}:__export")
p("Call context is restored", "When an exported call returns or raises, the context is exactly what it was before the call; after any transaction, successful or failed at any point, the context stack is empty.",
  "all call trees and all failure points", "Failure points are unbounded; includes failing owner checks.", f"{AC}:__export.__enter__", f"{AC}:__export.__exit__", f"{RT}:Context._pop_state")
p("Owned contracts run only for their owner", "If a contract has an owner, the body of an exported function of it runs only when it is entered from the owner (as transaction sender or as calling contract).",
  "all call trees and owner assignments", "Universal over call trees.", f"{AC}:__export.__enter__", f"{EX}:Executor.execute")
p("Running code always runs under its own context", "Whenever code of a contract runs because another contract called one of its functions, ctx.this is that contract.",
  "all accepted contract sources and call trees", "Universal over programs.", f"{CO}:ContractingCompiler.visit_FunctionDef", f"{AC}:__export", f"{LI}:Linter.visit_Assign")

# ---- metering -------------------------------------------------------------
p("Metered cost never passes the limit unnoticed", "While metering is on, as soon as the accumulated cost exceeds the supplied stamps (times 1000) or the global maximum the running transaction raises; a metered execution that completes has cost at most both limits and at most 800000 traced lines.",
  "all sequences of traced lines and writes", "Unbounded executions.", f"{TR}:Tracer.trace_func", f"{TR}:Tracer.add_cost")
p("Writes per transaction are bounded", "In a metered transaction the total of key and value bytes written (state and events) is below 131072 and each byte costs 25; the write that would reach the limit raises and is not stored.",
  "all sequences of writes", "Unbounded sequences.", f"{RT}:Runtime.deduct_write", f"{D}:Driver.set", f"{O}:LogEvent.write_event")
p("Metering cannot be switched off by the contract", "No contract code can continue running after the tracer has signalled that a limit was exceeded.",
  "all contract programs, including those calling the standard library", "Universal over programs; depends on where the signal is raised.", f"{CR}:verify", f"{TR}:Tracer.trace_func", f"{LI}:Linter.generic_visit")
p("Fee bounds", "For every metered execution 0 <= stamps_used <= stamps supplied, stamps_used = min(cost/1000 + 5, stamps), and the fee balance after the transaction is max(balance - stamps_used/rate, 0): it is never negative and no other account's balance is touched by the fee.",
  "all transactions, balances and rates", "All programs and states.", f"{EX}:Executor.execute")
p("The fee is always paid in full", "A metered transaction that was admitted pays exactly stamps_used/rate.",
  "all transactions", "Depends on what the contract does with the sender's balance.", f"{EX}:Executor.execute")

# ---- executor -------------------------------------------------------------
p("A failed transaction changes nothing but the fee", "If execution fails for any reason, the pending state after execute equals the pending state before it, except for the sender's fee balance when metering is on; the reported writes and events contain nothing else.",
  "all contract programs, failure points and prior states (no auto-commit, executor's own driver)", "Every failure point of every program.", f"{EX}:Executor.execute")
p("A failed transaction with an explicit driver", "The same holds when execute is given a driver argument.",
  "all pairs of drivers", "State of two drivers at once.", f"{EX}:Executor.execute")
p("A failed auto-commit keeps earlier transactions", "If an auto-commit execution fails, uncommitted effects of earlier successful transactions are not lost.",
  "all histories", "Needs histories mixing both modes.", f"{EX}:Executor.execute", f"{D}:Driver.flush_cache")
p("Reported writes are exactly what changed", "After a successful transaction the reported writes are exactly the keys whose pending value the transaction set, with their final values, plus the fee balance when metered; nothing of earlier transactions leaks in.",
  "all programs and histories", "All programs; aliasing of dictionaries between transactions.", f"{EX}:Executor.execute", f"{D}:Driver.set", f"{O}:Hash.clear")
p("Events are reported once, in order, only on success", "A successful transaction reports exactly the events it emitted, in order; a failed one reports none; none is reported again by a later transaction.",
  "all programs and histories", "All programs and histories.", f"{EX}:Executor.execute", f"{D}:Driver.set_event")
p("Execution is deterministic", "execute's status, result, writes, events, stamps and resulting state are a function of the transaction, the environment and the readable state only, not of cache contents, earlier transactions' leftovers or tracer state.",
  "all transactions and pairs of drivers that read the same", "Relational (two-run) property.", f"{EX}:Executor.execute", f"{RT}:Runtime.clean_up")
p("Private functions cannot be called from outside", "execute refuses every function name starting with '__' and changes no state, unless the executor was created to bypass this; every undecorated function of a compiled contract has such a name.",
  "all contracts, function names and states", "Universal over programs.", f"{EX}:Executor.execute", f"{CO}:ContractingCompiler.visit_FunctionDef", f"{CL}:AbstractContract.run_private_function")
p("Only deployed contracts are executed", "execute runs only functions of contracts stored in the database.",
  "all contract names, including names of loaded Python modules", "The set of names is unbounded.", f"{EX}:Executor.execute", f"{MO}:DatabaseFinder.find_spec")

# ---- compilation ----------------------------------------------------------
p("Lint rejects every forbidden construct anywhere", "A source accepted by the linter contains, at any depth, no node of the forbidden kinds (classes, async, try, with, lambda, yield, generators, global/nonlocal, from-imports, matrix product), no name or attribute starting or ending with '_' or equal to 'rt', no reference to a forbidden builtin (float as a name aside), at most one constructor, only export/construct decorators and at least one export.",
  "all syntax trees of any depth", "Unbounded trees.", f"{LI}:Linter.check", f"{LI}:Linter.generic_visit", f"{WL}:ILLEGAL_AST_TYPES")
p("The linter is an allow-list", "A source accepted by the linter contains only node kinds from the allowed list.",
  "all syntax trees", "Unbounded trees.", f"{LI}:Linter.ast_types", f"{WL}:ALLOWED_AST_TYPES")
p("Lint findings do not depend on history", "Checking a tree gives the same verdict whatever was checked before with the same linter, and the reported violations are sorted by line.",
  "all sequences of checks", "Histories.", f"{LI}:Linter._reset", f"{LI}:Linter.check")
p("No nested imports or functions", "An accepted source has no import statement and no function definition inside a function, at any depth.",
  "all syntax trees", "Unbounded trees.", f"{LI}:Linter.no_nested_imports", f"{LI}:Linter.visit_FunctionDef")
p("Exports are annotated, returns are not", "In an accepted source every argument of an exported function carries an allowed annotation and no exported function has a return annotation.",
  "all syntax trees", "Unbounded trees.", f"{LI}:Linter.annotation_types", f"{LI}:Linter.check_return_types")
p("Compilation renames consistently", "In compiled code every undecorated function is renamed with '__', the constructor is '____', every export carries the module's own name, every ORM assignment carries contract and variable name, float literals become decimal calls, and every use of a renamed name is renamed the same way while all other names are unchanged.",
  "all syntax trees accepted by the linter", "Unbounded trees.", f"{CO}:ContractingCompiler.parse", f"{CO}:ContractingCompiler.visit_FunctionDef", f"{CO}:ContractingCompiler.visit_Assign")
p("Compilation does not change which variable a name means", "A name that refers to a function argument in the source still refers to that argument in the compiled code.",
  "all accepted syntax trees", "Depends on coincidence of names.", f"{CO}:ContractingCompiler.parse")
p("methods_for_contract lists exactly the public functions", "For a compiled contract methods_for_contract returns exactly the exported functions with their argument names, in order.",
  "all compiled trees", "Unbounded trees.", f"{PA}:methods_for_contract")

# ---- submission and imports ----------------------------------------------
p("Contract code is write-once", "Once a contract has code, no later submission under that name changes its code, owner, developer or submission time, whatever happens in between except explicit deletion.",
  "all histories of submissions, commits and rollbacks", "Histories.", f"{CT}:Contract.submit", f"{D}:Driver.set_contract")
p("Submission naming rules", "A successful submit_contract by anyone but 'sys' created a name starting with 'con_', lower-case, at most 64 characters, that did not exist, called directly by the transaction signer.",
  "all names, callers and states", "All names.", f"{SU}:submit_contract", f"{CT}:Contract.submit")
p("Every accepted submission can be committed", "State produced by a successful submission can always be committed.",
  "all accepted contract names", "Names are unbounded; failure shows only at commit.", f"{SU}:submit_contract", f"{D}:Driver.__filename_to_path", f"{H}:set")
p("Only the developer can hand over a contract", "change_developer succeeds only for the current developer, and changes nothing but the developer entry.",
  "all callers, contracts and states", "Frame over the whole state.", f"{SU}:change_developer")
p("set_submission_contract replaces the submission contract", "After set_submission_contract(filename) the stored submission code is the file's content.",
  "all prior states", "Depends on whether the previous code was committed.", f"{CL}:ContractingClient.set_submission_contract", f"{D}:Driver.delete_contract")
p("Contract imports are confined", "An import statement or importlib.import_module in contract code yields only a module loaded from a contract stored in the database; every other name raises.",
  "all names and database states", "All names.", f"{MO}:restricted_import", f"{IM}:import_module", f"{MO}:DatabaseFinder")
p("Interface enforcement", "enforce_interface(m, spec) is true exactly when each spec entry is present in the module and, if it is a function (or variable), has the required name and argument names (or type).",
  "all modules and interface lists", "All modules.", f"{IM}:enforce_interface", f"{IM}:Func.is_of", f"{IM}:Var.is_of")

# ---- random ---------------------------------------------------------------
p("Randomness requires seeding in the same transaction", "Every random function raises unless seed() was called earlier in the same transaction; no seeding survives into the next transaction.",
  "all histories of transactions", "Histories.", f"{RA}:Seeded", f"{EX}:Executor.execute")
p("Random results are a function of block, input and salt", "The random stream after seed() depends only on block number, block hash, input hash and salt of the environment.",
  "all environments and histories", "Two-run property.", f"{RA}:seed")
p("Different blocks give different seeds", "Environments that differ in block number, block hash, input hash or salt produce different seed strings.",
  "all pairs of environments", "Collision needs a pair.", f"{RA}:seed")

# ---- concurrency ----------------------------------------------------------
p("Concurrent writers of one file do not interleave", "Under any schedule of threads setting and deleting keys, the final stored value of each key is that of one of the writes, namely the last in the order in which the file lock was taken.",
  "all schedules of any number of threads", "Schedules.", f"{H}:set", f"{H}:delete", f"{H}:get_file_lock")
p("A concurrent reader sees an old or a new value", "A reader running concurrently with writers returns a value that some completed or running write stored, or the initial one; never 'missing' for a key that always had a value.",
  "all schedules", "Schedules.", f"{H}:get_attr", f"{H}:_write_attr_to_file")

# ---- compiler, further ----------------------------------------------------
p("Compilation does not depend on what was compiled before", "Compiling a source gives the same result, or the same error, whatever was compiled before with the same compiler.",
  "all sources and histories of compilations", "Histories.", f"{CO}:ContractingCompiler.parse", f"{CO}:ContractingCompiler.visit_FunctionDef")
p("variables_for_contract lists exactly the declared variables and hashes", "For a compiled contract variables_for_contract returns exactly the names of the declared variables and hashes, and does not raise.",
  "all accepted sources", "All sources.", f"{PA}:variables_for_contract")

p("File locks cause no deadlock and are given back", "Under any schedule of threads using set, delete and get_value, some thread that is not finished can always go on without a timeout; every schedule ends, and then every operation has been answered and no lock is held.",
  "all schedules of any number of threads", "Schedules; deadlocks are rare events.", f"{H}:set", f"{H}:delete", f"{H}:get_file_lock")

# ---- client ---------------------------------------------------------------
p("Private functions stay private", "After run_private_function, whether it returned or raised, calls of functions whose name starts with '__' are refused again and change nothing.",
  "all contracts, functions, arguments and states", "Depends on whether the contract raises.", f"{CL}:AbstractContract.run_private_function", f"{EX}:Executor.execute")
p("A client call sees the time of the call", "A call through the client without explicit time or environment runs with 'now' equal to the time of the call.",
  "all histories of calls", "Histories.", f"{CL}:AbstractContract._abstract_function_call", f"{CL}:ContractingClient.__init__")
p("quick_write is durable and touches nothing else", "After quick_write(variable, key, value) both quick_read and a new Driver read the stored form of the value, and no other key is committed.",
  "all states, keys and values", "All states and values.", f"{CL}:AbstractContract.quick_write", f"{CL}:AbstractContract.quick_read")
p("get_contracts lists exactly the stored contracts", "get_contracts() returns exactly the names that have stored code.",
  "all states", "Depends on what is pending, cached and committed.", f"{CL}:ContractingClient.get_contracts", f"{D}:Driver.keys")
p("flush leaves only the submission contract", "After flush() nothing is readable but the code, compiled code and submission time of the submission contract, whatever was stored, cached or pending before.",
  "all prior states and all keys", "Quantifies over all keys and states.", f"{CL}:ContractingClient.flush", f"{D}:Driver.flush_full")

# ---- hashing and cryptography ---------------------------------------------
p("Hashes of different texts differ", "hashlib.sha3 and hashlib.sha256 return the lower case hexadecimal form of the hash of what the text stands for (the bytes it spells in hexadecimal, else its UTF-8 bytes), and two different texts have the same hash only if the hash function has a collision.",
  "all texts and all hash functions", "All texts; collisions need a pair.", f"{HA}:sha3", f"{HA}:sha256")
p("Valid keys", "crypto.key_is_valid(key) is true exactly for texts of 64 hexadecimal digits.",
  "all texts", "All texts.", f"{CR}:key_is_valid")
p("Signature verification answers", "crypto.verify(vk, msg, signature) returns whether the signature is valid for the UTF-8 bytes of the message under the key, and raises only if vk or signature is not hexadecimal or has the wrong length, or msg has no UTF-8 form.",
  "all texts and all signature schemes", "All texts.", f"{CR}:verify")

p("Random bits", "After seed(), random.getrandbits(k) returns an integer from 0 to 2^k - 1 in which each of the k bits is one draw, for every k >= 0; without seed() it raises.",
  "all k and all outcomes of the generator", "All k and all draws.", f"{RA}:getrandbits")
p("Rounding decimals", "int(x) is the whole part of x, round(x) is the nearest whole number (half to even) and round(x, n) the nearest decimal with n digits after the point.",
  "all contract decimals and all n", "All values.", f"{DE}:ContractingDecimal.__round__", f"{DE}:ContractingDecimal.__int__")
p("Decimals do not depend on the thread", "Converting text to a contract decimal, as reading a stored decimal, computing a fee and checking a balance do, gives the same result in every thread of the process.",
  "all texts", "All texts; tests run in one thread.", f"{DE}:CONTEXT", f"{DE}:fix_precision", f"{EN}:as_object", f"{EX}:Executor.execute")
p("A contract object passes arguments as given", "Calling a function of a contract object returned by get_contract runs the contract's function with exactly the keyword arguments given, and its declared defaults for the others; get_contract works for every accepted contract.",
  "all contracts, functions and arguments", "All names of arguments.", f"{CL}:AbstractContract.__init__", f"{CL}:AbstractContract._abstract_function_call", f"{CL}:ContractingClient.get_contract")
p("Storage is declared under its own name", "In accepted code a Variable, Hash or event is created only by assigning it to one name, which becomes its storage name in the contract's own storage; the classes cannot be given other names.",
  "all syntax trees", "Unbounded trees.", f"{LI}:Linter.visit_Assign", f"{CO}:ContractingCompiler.visit_Assign")
p("The contract state dump is the committed state", "get_all_contract_state returns every committed entry of every contract with its value, and nothing else.",
  "all histories of the storage", "All histories.", f"{D}:Driver.get_all_contract_state", f"{H}:get_all_keys_from_file")
p("The run state dump is the committed run state", "get_run_state returns every committed entry of the run state with its value, and nothing else.",
  "all histories of the storage and all storage directories", "All histories.", f"{D}:Driver.get_run_state", f"{H}:get_groups")
p("keys_from_disk lists the stored keys", "keys_from_disk(prefix, length) returns the stored keys that start with the prefix, sorted, without duplicates, and no more than length of them if that is positive.",
  "all histories of the storage, all prefixes and lengths", "All histories.", f"{D}:Driver.keys_from_disk", f"{H}:get_groups")
p("delete_contract deletes the contract and nothing else", "After delete_contract(name) no entry of the contract can be read, now or after a restart, and every other entry reads as before.",
  "all driver states and names", "All states.", f"{D}:Driver.delete_contract", f"{D}:Driver.delete_key_from_disk", f"{D}:Driver.items")
p("Reported reads", "The reads in the output of execute are exactly the keys the transaction read or wrote, each with its value before the transaction.",
  "all transactions, states and histories", "All programs and histories.", f"{EX}:Executor.execute", f"{D}:Driver.get", f"{D}:Driver.set")
p("Admission", "A metered transaction is admitted exactly if the sender's balance times the rate is at least the stamps supplied; if it is not, no contract code runs, the transaction fails, and it writes nothing but the sender's balance.",
  "all balances that are None, ints or contract decimals not below 0, and all stamps and rates up to 10^29", "All amounts, with the rounding and clamping of contract decimals.", f"{EX}:Executor.execute", f"{DE}:ContractingDecimal")
p("Metered transactions end", "Whatever contract code does, a metered transaction executes at most 800001 lines, of which at most 1000 times the stamps plus one are lines of contract code, whether it succeeds or fails.",
  "all contract programs, all transactions and states", "All programs; an endless loop cannot be tested.", f"{TR}:Tracer.trace_func", f"{EX}:Executor.execute", f"{MO}:DatabaseLoader.exec_module")
p("Operators on dates and durations", "A date plus a duration, in either order, and a date minus a duration are the date that much later or earlier; dates subtract to durations; durations add, subtract and multiply by whole numbers in either order; == between values of different types is False; every other combination is a TypeError.",
  "all dates, durations and values of any other type, on either side of every operator", "All pairs of values.", f"{TI}:Datetime.__sub__", f"{TI}:Datetime.__eq__", f"{TI}:Timedelta.__sub__", f"{TI}:Timedelta.__mul__")
p("Random choices", "After seed(), random.randrange, randint, choice, choices and shuffle give only numbers of the range, elements of the list, or an order of the list; every one of them is possible and, if the generator's bits are, equally likely; empty ranges and lists are errors; without seed() they raise and draw nothing.",
  "all arguments and everything the generator can draw", "All draws, lists and ranges.", f"{RA}:shuffle", f"{RA}:randrange", f"{RA}:randint", f"{RA}:choice", f"{RA}:choices")
p("Dates from text", "datetime.strptime(text, format) with the directives %Y %m %d %H %M %S %f and %% gives only a valid date whose fields are the numbers the text has at the places of the directives, with 1 January 1900 0:00 for the fields that are missing; it reads every text in which the numbers have their full width, among them str(date); otherwise it raises ValueError, or another exception if a directive is repeated.",
  "all texts and formats with these directives, digits of every script", "All texts and formats; the matching backtracks.", f"{TI}:Datetime.strptime", f"{TI}:Datetime.__str__")
p("Stored values do not change by themselves", "What a key reads as changes only through a write, a delete, a commit, a hard apply, a rollback or a flush: changing in place a list or dict that was stored or that was read from storage changes neither what any key reads as nor what is written to disk, a failed transaction leaves every key as it was, dropping cache entries is invisible, and what reaches the disk is what was charged for.",
  "all sequences of reads, writes, object creations, in-place changes, transactions, commits and rollbacks", "All histories of shared objects; the aliasing shows only when a list is kept and changed after the call.", f"{D}:Driver.get", f"{D}:Driver.set", f"{D}:Driver.find", f"{D}:Driver.commit", f"{D}:Driver.hard_apply", f"{EX}:Executor.execute")
p("A failed transaction gives the pending writes back", "After a transaction fails, every key with a pending value when it started has exactly that value again, even if the transaction's code changed that very object in place, stored it elsewhere, or committed, rolled back or flushed.",
  "all histories before the transaction and all code in it", "All histories and all object graphs; rests on the deep copy being out of the code's reach.", f"{EX}:Executor.execute", f"{D}:Driver.get", f"{D}:Driver.set")
p("Operators between a decimal and any value", "Between a decimal and any number (int, bool, float or decimal, on either side) the arithmetic operators give the exact result rounded down to 30 places and the comparisons are those of the numbers; with any value that is not a number arithmetic and ordering raise TypeError and == is False.",
  "all operators, all decimals, all other operands of every stored type, both sides", "All pairs of operand values; the failures are in rare operand types.", f"{DE}:ContractingDecimal._get_other", f"{DE}:ContractingDecimal.__add__", f"{DE}:ContractingDecimal.__rsub__", f"{DE}:ContractingDecimal.__eq__", f"{DE}:neg_sci_not")
p("What a contract's import runs", "An import statement in contract code succeeds only for contracts, and runs no code but that of contracts, whether it succeeds or is refused, whatever dotted name it has.",
  "all names, installations of Python modules and contracts, states of sys.modules", "All names and module systems; the code that runs before the refusal is that of the name's parents.", f"{MO}:restricted_import", f"{MO}:DatabaseFinder.find_spec", f"{LI}:Linter.visit_Import", f"{EX}:Executor.execute")
p("Attributes of a contract object", "For a contract object of the client, contract.x is the Variable x if the contract has stored x (just its value if x begins with '__'), the Hash x if it has stored an entry of x, and raises AttributeError otherwise, before and after commits; looking changes nothing that reads return.",
  "all contracts, names, stored states, histories of commits, set iteration orders", "All names and storage states; the tests look only before a commit, where it works.", f"{CL}:AbstractContract.__getattr__", f"{CL}:AbstractContract.keys", f"{D}:Driver.items", f"{D}:Driver.iter_from_disk")
p("Only a contract's own functions change its storage", "Let no other contract's code address the storage of contract c directly (by a foreign Hash or Variable declared with the name of c).  Then every relation between the stored states of c that c's own functions preserve, calls to other contracts and re-entrant calls included, is preserved by every history of transactions, which may submit, import and call any contracts, fail, or call the submission contract; apart from the fee account, if fees are taken from c.  A contract none of whose functions write never changes.",
  "all contracts, relations, other contracts' code, contracts submitted on the way, histories of transactions of any length", "All histories and all other contracts, including ones not written yet.", f"{EX}:Executor.execute", f"{D}:Driver.set", f"{O}:Hash", f"{MO}:DatabaseLoader.exec_module", "src/contracting/contracts/submission.s.py:submit_contract", "src/contracting/storage/contract.py:Contract.submit")
p("Loaded code does not outlive its transaction", "When a transaction returns, with either status, every contract module in sys.modules was there before it started, unchanged; so with none loaded at first, every transaction of a history executes the code that is stored when it runs.",
  "all states, transactions and histories", "All import orders, nested calls and failures in the middle of an import.", f"{RT}:Runtime.clean_up", f"{MO}:DatabaseLoader.exec_module", f"{EX}:Executor.execute")
p("A token's supply is conserved", "For the token contract of the README (repaired: default balance 0, declared allowances to which approve adds, amounts made decimals, no mint), the sum of all balances is the same after any history of transactions, none of which makes a balance negative, if fees are taken from another contract; if fees are taken from the token's balances, each transaction destroys at most the fee, and the sum never grows.",
  "all amounts, accounts, allowances, other contracts calling the token, histories of transactions, fees", "All histories and amounts, with rounding and clamping of decimals; every int, decimal or missing balance.", "README.md:transfer", "README.md:transfer_from", f"{DE}:ContractingDecimal", f"{O}:Hash", f"{EX}:Executor.execute")
p("A contract object calls the function asked for", "For every contract that can be stored, object.f(...) of the object client.get_contract(name) returns runs the function f of the contract name, signed by the client's signer unless another is given, with the arguments given and None for the others.",
  "all contracts, function names, argument names, calls and options", "All function names a contract may have, including those the object uses itself.", f"{CL}:AbstractContract.__init__", f"{CL}:AbstractContract._abstract_function_call", f"{CL}:AbstractContract.now", f"{CL}:ContractingClient.get_contract")
p("Clients of one process are independent", "Calls through one client, with its own driver, do not change what calls through another client of the same process answer or store.",
  "all numbers of clients, contracts, calls and orders of calls", "All interleavings of calls through several clients that share the runtime and default arguments.", f"{CL}:ContractingClient.__init__", f"{CL}:AbstractContract._abstract_function_call", f"{EX}:Executor.execute", f"{RT}:Runtime")
p("A report does not change after it was returned", "The dict execute returned shows the reads, writes and events of its transaction for ever: later transactions, commits and rollbacks do not change it.",
  "all transactions and all later uses of the executor and the driver", "All later histories.", f"{EX}:Executor.execute", f"{D}:Driver.commit", f"{D}:Driver.rollback", f"{D}:Driver.hard_apply")
p("execute leaves its arguments alone", "The kwargs dict passed to execute is the same after it returned as before.",
  "all transactions, states and arguments", "All argument dicts and all ways a transaction can end.", f"{EX}:Executor.execute")
p("What is not stored reads as the declared default", "Reading a Variable or Hash entry under which nothing is stored gives the default value it was declared with, whatever was done to other entries before.",
  "all defaults, keys, code and states", "All sequences of reads, stores and changes of the objects read.", f"{O}:Variable.get", f"{O}:Hash._get", f"{D}:Driver.get")
p("What a submission stores", "A transaction (or client.submit) that submits code under a name, when it succeeds, leaves under that name the compiled code, its byte code, the owner that was given, the sender as developer and the time of the transaction, and there was no contract of that name before.",
  "all submissions, codes, constructors, environments and states", "All behaviours of the submitted code's top level and constructor.", "src/contracting/storage/contract.py:Contract.submit", f"{D}:Driver.set_contract", "src/contracting/contracts/submission.s.py:submit_contract", f"{CL}:ContractingClient.submit")
p("A dry run leaves no trace", "Transactions that are executed without committing (to try them out, or to estimate their cost) and then rolled back with driver.rollback() leave no trace: the next transaction, whatever it is, reports the same result, stamps, writes, reads and events, and leaves the same in storage, as if they had not been run.",
  "all contracts, states, sequences of dry runs of any length and later transactions", "All contracts and all histories of dry runs.", f"{EX}:Executor.execute", f"{D}:Driver.rollback", f"{RT}:Runtime.clean_up")
p("The stamp limit cannot be observed", "If a transaction is reported to have used fewer stamps than its limit, then with any other limit that is at least the stamps reported and that the sender's balance covers, it reports and does exactly the same: same result, stamps, fee, writes, reads, events and state afterwards.  So the stamps reported by a try-out with a high limit are a sufficient limit, and no contract can behave differently depending on the limit.  With a higher limit, what succeeded succeeds with the same result, events and writes.",
  "all contracts, transactions, states and pairs of limits", "All contract programs and all pairs of limits.", f"{EX}:Executor.execute", f"{TR}:Tracer.add_cost", f"{TR}:Tracer.set_stamp", f"{RT}:Runtime.deduct_write")
p("It does not matter when writes are saved", "For the same sequence of reads and writes, whether, where and how often commit() or hard_apply() is called in between, and what the cache drops, makes no difference: every read and write answers the same, every key reads the same afterwards, the same is charged, and after a final commit() the files read the same.  In particular a block whose transactions are committed together ends like one committed transaction by transaction.",
  "all sequences of reads and writes, and all sets of commit points in them", "All sequences and all placements of commits.", f"{D}:Driver.commit", f"{D}:Driver.hard_apply", f"{D}:Driver.find", f"{D}:Driver.get", f"{D}:Driver.set")
p("What the flushes remove", "flush_file(name) makes every key of that file read as absent and leaves every key of other files, and what is pending, as they were; flush_cache() forgets everything that is not stored, so that every key reads as in a new Driver and a commit after it changes nothing; flush_full() leaves no key, no file and nothing pending.",
  "all Driver histories, all keys and file names", "All histories of writes, commits and flushes, and all keys.", f"{D}:Driver.flush_file", f"{D}:Driver.flush_cache", f"{D}:Driver.flush_disk", f"{D}:Driver.flush_full")
p("What lint accepts compiles", "client.lint(source) answers None for exactly the sources that client.compile and a submission can compile; its answer depends on the source alone, it leaves the compiler as it was, and with raise_errors it raises for exactly the sources it finds fault with.",
  "all sources and all states of the client's compiler", "All syntax trees and all histories of the compiler.", f"{CL}:ContractingClient.lint", f"{CL}:ContractingClient.compile", f"{CO}:ContractingCompiler.parse", f"{CO}:ContractingCompiler.visit_Assign", f"{LI}:Linter.check", f"{LI}:Linter.visit_Assign")
p("What a client call answers", "Calling a function of a contract object returns what the function returned; if the transaction fails the call raises exactly the exception it failed with, and no stored value has changed but, if it was metered, the signer's balance. With return_full_output=True the call returns the report of the transaction, whether it succeeded or failed.",
  "all contracts, functions, arguments, environments and states", "All behaviours of the called code.", f"{CL}:AbstractContract._abstract_function_call", f"{EX}:Executor.execute")
p("The owner of a contract", "importlib.owner_of(m) tells who may call the contract m: anyone if it is None or empty, otherwise only that account or contract; asking changes nothing, and the answer stays what was given at the submission, whatever is executed and committed later.",
  "all states, contracts and callers, and all later transactions", "All histories of transactions of all contracts.", f"{IM}:owner_of", f"{D}:Driver.get_owner", f"{AC}:__export.__enter__", f"{CT}:Contract.submit")
p("What a transaction is charged for", "The stamps a metered run uses, and whether and where it is stopped, depend only on the lines of contract code it executes and on what it writes: not on the lines of library code in between, nor on the memory of the process, nor on earlier transactions. Within the limit all of it is charged; beyond it the first charge that passes the limit stops the run.",
  "all sequences of executed lines and writes, and all limits", "All sequences, of any length, on all machines.", f"{TR}:Tracer.trace_func", f"{TR}:Tracer.add_cost", f"{TR}:Tracer.start", f"{RT}:Runtime.deduct_write", f"{RT}:Runtime.clean_up")
p("A contract's functions are what its code says", "What runs when a contract (or the executor) calls a function of another contract is the function its stored code defines, whatever third contracts did before in the transaction or in earlier ones; and what the standard library offers is the same for every contract and transaction.",
  "all histories of transactions, all sequences of imports and attribute assignments in them, all contracts and attributes", "All histories; the effect of one contract on another.", f"{LI}:Linter.visit_Attribute", f"{LI}:Linter.visit_Assign", f"{MO}:DatabaseLoader.exec_module", f"{RT}:Runtime.clean_up", "src/contracting/stdlib/env.py:gather")
p("What a name means in contract code", "A name in the code of a loaded contract is what the contract's own code bound it to, else a value of the environment of this transaction, else what the standard library provides. The names the runtime itself relies on (the mark that this is a contract, by which imports are restricted and lines charged; the module's name, by which it is unloaded after the transaction) are out of reach of contract code and of the environment.",
  "all contracts, environments, names and histories of transactions", "All programs the linter accepts; all histories.", f"{MO}:DatabaseLoader.exec_module", f"{MO}:restricted_import", "src/contracting/stdlib/env.py:gather", f"{RT}:Runtime.clean_up", f"{LI}:Linter.visit_FunctionDef", f"{LI}:Linter.visit_Import")
p("A date is one value", "A date of the time module is one value: what it is compared by, subtracted by and printed as is what is stored of it, so that a date written to a Variable or Hash is read back as an equal date, whatever contract code did with it.",
  "all dates and all sequences of assignments to their attributes", "All dates and all sequences of assignments; all programs the linter accepts.", f"{TI}:Datetime", f"{EN}:Encoder.default", f"{EN}:as_object", f"{LI}:Linter.visit_Attribute")
p("A contract given as a Python function", "submit(f), lint(f) and compile(f) of a Python function treat it exactly as the text of the statements of its body; submit without a name takes the function's name. Nothing else of the function (parameters, defaults, decorators, annotations) matters; anything but one plain function definition is refused and changes nothing.",
  "all functions, linter settings, environments and states", "All functions and all states of the client.", f"{CL}:ContractingClient.closure_to_code_string", f"{CL}:ContractingClient.submit", f"{CL}:ContractingClient.lint", f"{CL}:ContractingClient.compile")
p("An event keeps its declaration", "What LogEvent(event, params) checks once holds for every event it logs: the arguments are those declared, of declared types among str, int, float, bool and decimal, at most three of them indexed, whatever the contract does in between.",
  "all declarations and all sequences of statements between a declaration and an event", "All sequences of statements; aliasing of a dict.", f"{O}:LogEvent.__init__", f"{O}:LogEvent.write_event")
p("Equal numbers are one entry", "Numbers, dates and durations can be indices of a hash; h[a] and h[b] are one entry exactly if a and b are equal.",
  "all numbers, dates and durations, all hashes and states", "All pairs of numbers, all histories that compute them.", f"{O}:Hash._validate_key", f"{DE}:ContractingDecimal.__str__", f"{TI}:Datetime.__str__", f"{TI}:Timedelta.__str__")
p("A client reads and writes the contract's own entries", "client.get_var(contract, name, parts) answers what the contract's hash (or, without parts, its variable) of that name holds, None where the contract sees its default; client.set_var makes both read the value, and changes nothing else and no stored file; different arguments are different entries.",
  "all contracts, names, parts, values and states", "Two code paths build the keys; all keys and states.", f"{CL}:ContractingClient.get_var", f"{CL}:ContractingClient.set_var", f"{D}:Driver.get_var", f"{O}:Hash.__getitem__")

out = os.path.join(os.path.dirname(os.path.abspath(__file__)), '..', 'properties.jsonl')
with open(out, 'w') as f:
    for x in P: f.write(json.dumps(x, ensure_ascii=False) + '\n')
print(len(P))
