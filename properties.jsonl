{"id": "C01", "title": "Read your writes", "statement": "On one Driver, after set(k, v) with v not None, every later get(k) returns the stored form of v until k is set again, whatever gets, sets of other keys, deletes of other keys happen in between; in general get returns the last non-None write pending for the key, else the cached value, else the durable one.", "quantifier": "all keys, values and finite histories of driver calls on a Driver that does not bypass its cache", "why_tests_cant": "A test fixes one key and a short history; the claim is about every history and every other key touched in between.", "anchors": ["src/contracting/storage/driver.py:Driver.set", "src/contracting/storage/driver.py:Driver.get", "src/contracting/storage/driver.py:Driver.find"]}
{"id": "C02", "title": "A delete is visible at once", "statement": "After delete(k) (or set(k, None)) the next get(k) on the same Driver returns None.", "quantifier": "all keys and all earlier histories", "why_tests_cant": "The repository's tests only delete keys that were never committed, which is exactly the case that works.", "anchors": ["src/contracting/storage/driver.py:Driver.delete", "src/contracting/storage/driver.py:Driver.find", "src/contracting/storage/orm.py:Variable.set"]}
{"id": "C03", "title": "Commit makes exactly the pending writes durable", "statement": "After commit() a fresh Driver on the same directory reads, for every pending key, the decoded form of its last pending value (or nothing if that was a delete), and reads every other key exactly as before; the committing Driver has no pending writes left.", "quantifier": "all driver states whose pending keys name different locations, and all keys", "why_tests_cant": "Needs every set of pending keys and all non-pending keys (frame condition).", "anchors": ["src/contracting/storage/driver.py:Driver.commit", "src/contracting/storage/driver.py:Driver.__parse_key", "src/contracting/storage/hdf5.py:set_value_to_disk", "src/contracting/storage/hdf5.py:delete"]}
{"id": "C04", "title": "Rollback returns to the last durable state", "statement": "After rollback() every get returns what is on disk: no uncommitted write made since the last commit is visible, and the disk itself is unchanged.", "quantifier": "all histories of sets, deletes, gets and commits before the rollback, all keys", "why_tests_cant": "Universally quantified over histories and keys.", "anchors": ["src/contracting/storage/driver.py:Driver.rollback"]}
{"id": "C05", "title": "Rollback to a timestamp undoes later blocks", "statement": "rollback(nanos) restores, for each key, the value it had before the first hard_apply at or after nanos.", "quantifier": "all histories of hard_apply calls with increasing timestamps and all nanos", "why_tests_cant": "Requires a statement over every history of applied blocks; a test would have to hit the right internal queue state.", "anchors": ["src/contracting/storage/driver.py:Driver.rollback", "src/contracting/storage/driver.py:Driver.hard_apply"]}
{"id": "C06", "title": "Hard apply is durable and tagged", "statement": "After hard_apply(n) every pending write is durable (a fresh Driver reads its decoded form; deletes read as nothing), each written entry carries block number n, no other key changes, and no pending write remains.", "quantifier": "all driver states with an empty delta queue and non-aliasing pending keys, all n", "why_tests_cant": "Frame condition over all keys; all pending sets.", "anchors": ["src/contracting/storage/driver.py:Driver.hard_apply", "src/contracting/storage/hdf5.py:set"]}
{"id": "C07", "title": "A crash during commit never invents values", "statement": "If the process stops after any number of per-key disk updates of a commit, every key's durable value is either its old or its new value, and running the same commit again yields exactly the uninterrupted result.", "quantifier": "all crash points between per-key updates, all pending sets", "why_tests_cant": "Crash points cannot be enumerated by unit tests.", "anchors": ["src/contracting/storage/driver.py:Driver.commit", "src/contracting/storage/hdf5.py:set", "src/contracting/storage/hdf5.py:delete"]}
{"id": "C08", "title": "Commit is atomic under crashes", "statement": "If the process stops inside commit(), the durable state is either the state before or the state after the whole commit.", "quantifier": "all crash points, including those inside one key's update", "why_tests_cant": "Crash points cannot be enumerated by unit tests.", "anchors": ["src/contracting/storage/driver.py:Driver.commit", "src/contracting/storage/hdf5.py:_write_attr_to_file"]}
{"id": "C09", "title": "Different state keys never share storage", "statement": "Two different keys that the ORM can produce (contract.variable, contract.hash:k1:...:kn) are stored at different places, so writing one never changes the other.", "quantifier": "all pairs of ORM keys", "why_tests_cant": "A collision needs a specific pair of keys; tests cannot enumerate pairs.", "anchors": ["src/contracting/storage/driver.py:Driver.__parse_key", "src/contracting/storage/orm.py:Hash._validate_key", "src/contracting/storage/hdf5.py:_write_attr_to_file"]}
{"id": "C10", "title": "Listing a prefix is complete", "statement": "items(prefix)/keys(prefix)/values(prefix), and Hash.all() built on them, report every live entry under the prefix - pending, cached or committed - and nothing else.", "quantifier": "all driver states and prefixes", "why_tests_cant": "The tests only list uncommitted entries; completeness is over all stores and states.", "anchors": ["src/contracting/storage/driver.py:Driver.items", "src/contracting/storage/driver.py:Driver.iter_from_disk", "src/contracting/storage/hdf5.py:get_groups", "src/contracting/storage/orm.py:Hash.all"]}
{"id": "C11", "title": "Clearing a hash removes all of it", "statement": "After Hash.clear() and a commit, every entry of that hash reads as the default value, and no entry of any other hash or variable changed.", "quantifier": "all driver states, hashes and keys", "why_tests_cant": "Completeness and frame over all keys; tests never commit before clearing.", "anchors": ["src/contracting/storage/orm.py:Hash.clear", "src/contracting/storage/driver.py:Driver.items", "src/contracting/storage/driver.py:Driver.delete"]}
{"id": "C12", "title": "Reads do not depend on what the cache happens to hold", "statement": "The value returned by get(k) is the same whichever entries the time-limited cache has already dropped, so two nodes with the same history read the same value.", "quantifier": "all histories and all subsets of expired or evicted cache entries", "why_tests_cant": "Expiry times and eviction are environment-dependent schedules.", "anchors": ["src/contracting/storage/driver.py:Driver.find", "src/contracting/storage/driver.py:Driver.hard_apply", "src/contracting/storage/driver.py:Driver.__init__"]}
{"id": "C13", "title": "Stored values round-trip", "statement": "decode(encode(v)) equals v for every storable value: None, booleans, integers of any size, strings, bytes, decimals, datetimes, timedeltas, and lists and string-keyed dicts of these without reserved keys.", "quantifier": "all values of that grammar, any nesting depth and size", "why_tests_cant": "Infinite value space, unbounded nesting.", "anchors": ["src/contracting/storage/encoder.py:encode", "src/contracting/storage/encoder.py:decode", "src/contracting/storage/encoder.py:Encoder.default", "src/contracting/storage/encoder.py:as_object"]}
{"id": "C14", "title": "What the encoding does not preserve", "statement": "Outside that grammar the round trip changes the value silently: tuples become lists, non-string dict keys become strings (and may merge), dicts using a reserved key such as __time__ become another type; decode(encode(v)) = v fails exactly for these shapes.", "quantifier": "all values", "why_tests_cant": "A characterisation of the full set of non-preserved values.", "anchors": ["src/contracting/storage/encoder.py:encode", "src/contracting/storage/encoder.py:as_object"]}
{"id": "C15", "title": "No raw integer above 8 bytes is stored", "statement": "The encoded text of a value contains no bare integer outside the open interval (-2^63, 2^63-1); larger ones are wrapped as strings.", "quantifier": "all values of any nesting", "why_tests_cant": "Nesting shapes are unbounded.", "anchors": ["src/contracting/storage/encoder.py:encode_int", "src/contracting/storage/encoder.py:encode_ints_in_dict", "src/contracting/storage/encoder.py:encode"]}
{"id": "C16", "title": "Encoding is deterministic text", "statement": "encode(v) is pure ASCII without line breaks and spaces outside strings, so the metered size of a write equals its number of characters, and equal values give equal text.", "quantifier": "all encodable values", "why_tests_cant": "Infinite value space.", "anchors": ["src/contracting/storage/encoder.py:encode", "src/contracting/storage/encoder.py:encode_kv", "src/contracting/execution/runtime.py:Runtime.deduct_write"]}
{"id": "C17", "title": "convert_dict agrees with decode", "statement": "Converting an already parsed JSON object with convert_dict gives the same Python value as decode does on its text.", "quantifier": "all JSON objects", "why_tests_cant": "Infinite space of JSON trees.", "anchors": ["src/contracting/storage/encoder.py:convert_dict", "src/contracting/storage/encoder.py:decode"]}
{"id": "C18", "title": "Decimals stay on the fixed-point grid and in range", "statement": "Every ContractingDecimal ever constructed is a whole multiple of 10^-30, at most 10^29 and greater than -10^30.", "quantifier": "all constructor inputs and all sequences of arithmetic operations", "why_tests_cant": "Infinite operand space; rounding corner cases.", "anchors": ["src/contracting/stdlib/bridge/decimal.py:ContractingDecimal.__init__", "src/contracting/stdlib/bridge/decimal.py:fix_precision"]}
{"id": "C19", "title": "Decimal arithmetic is exact fixed point rounded down", "statement": "a+b, a-b, a*b and a/b equal the exact mathematical result rounded toward minus infinity to 30 decimals and clamped at 10^29, or raise when the result is -10^30 or less (or on division by zero); no other rounding ever shows.", "quantifier": "all pairs of decimals", "why_tests_cant": "Double rounding (60 digits, then 30 decimals) could show only on rare operands.", "anchors": ["src/contracting/stdlib/bridge/decimal.py:ContractingDecimal.__add__", "src/contracting/stdlib/bridge/decimal.py:ContractingDecimal.__sub__", "src/contracting/stdlib/bridge/decimal.py:ContractingDecimal.__mul__", "src/contracting/stdlib/bridge/decimal.py:ContractingDecimal.__truediv__", "src/contracting/stdlib/bridge/decimal.py:CONTEXT"]}
{"id": "C20", "title": "Transfers conserve money", "statement": "For balances x, y and amount a, (x-a)+(y+a) = x+y as long as nothing is clamped; moreover (x+a)-a = x.", "quantifier": "all decimal balances and amounts", "why_tests_cant": "All operands.", "anchors": ["src/contracting/stdlib/bridge/decimal.py:ContractingDecimal.__add__", "src/contracting/stdlib/bridge/decimal.py:ContractingDecimal.__sub__", "src/contracting/stdlib/bridge/decimal.py:fix_precision"]}
{"id": "C21", "title": "Decimals survive their text form", "statement": "ContractingDecimal(str(d)) == d, and the stored form of a decimal decodes to an equal decimal.", "quantifier": "all decimals", "why_tests_cant": "Scientific/engineering notation corner cases over all magnitudes.", "anchors": ["src/contracting/stdlib/bridge/decimal.py:ContractingDecimal.__str__", "src/contracting/stdlib/bridge/decimal.py:ContractingDecimal.__init__", "src/contracting/storage/encoder.py:Encoder.default", "src/contracting/storage/orm.py:Hash._get"]}
{"id": "C22", "title": "Every finite number converts to a decimal", "statement": "ContractingDecimal(x) succeeds and is x rounded down to 30 decimals, clamped at 10^29, for every int or finite float x greater than -10^30.", "quantifier": "all ints and float renderings", "why_tests_cant": "The failing renderings (negative numbers in e-notation) are a thin set.", "anchors": ["src/contracting/stdlib/bridge/decimal.py:neg_sci_not", "src/contracting/stdlib/bridge/decimal.py:ContractingDecimal.__init__"]}
{"id": "C23", "title": "Decimal comparison is the order of the values", "statement": "==, <, <=, >, >= between decimals are the total order of their numeric values, and comparisons with an int agree with the int's value.", "quantifier": "all pairs of decimals / decimals and ints", "why_tests_cant": "All operands; clamping of the other operand only shows beyond 10^29.", "anchors": ["src/contracting/stdlib/bridge/decimal.py:ContractingDecimal._get_other", "src/contracting/stdlib/bridge/decimal.py:ContractingDecimal.__lt__", "src/contracting/stdlib/bridge/decimal.py:ContractingDecimal.__bool__"]}
{"id": "C24", "title": "Decimal remainder and integer division", "statement": "a // b truncates toward zero, a % b has the sign of a, |a % b| < |b| and a = (a // b)*b + a % b whenever neither operation raises.", "quantifier": "all decimals a and non-zero b", "why_tests_cant": "All operands.", "anchors": ["src/contracting/stdlib/bridge/decimal.py:ContractingDecimal.__mod__", "src/contracting/stdlib/bridge/decimal.py:ContractingDecimal.__floordiv__"]}
{"id": "C25", "title": "Datetime order and difference agree", "statement": "a < b, a == b, a > b is a total order on datetimes; (a + t) - a == t for every timedelta t for which a + t exists, and a + t is later than a exactly when t is positive.", "quantifier": "all valid datetimes and all timedeltas", "why_tests_cant": "Calendar arithmetic over 10^4 years.", "anchors": ["src/contracting/stdlib/bridge/time.py:Datetime.__add__", "src/contracting/stdlib/bridge/time.py:Datetime.__sub__", "src/contracting/stdlib/bridge/time.py:Datetime.__lt__"]}
{"id": "C26", "title": "Timedelta arithmetic", "statement": "Timedelta + and - are exact on total seconds, are inverse to each other, scaling by an int multiplies total seconds; seconds/minutes/hours/days/weeks are the total floored to that unit; timedelta order is the order of total seconds.", "quantifier": "all timedeltas and ints", "why_tests_cant": "All operands incl. negatives.", "anchors": ["src/contracting/stdlib/bridge/time.py:Timedelta.__add__", "src/contracting/stdlib/bridge/time.py:Timedelta.__sub__", "src/contracting/stdlib/bridge/time.py:Timedelta.__mul__", "src/contracting/stdlib/bridge/time.py:Timedelta.seconds"]}
{"id": "C27", "title": "Datetime difference loses nothing", "statement": "b + (a - b) == a for all datetimes a and b.", "quantifier": "all pairs of valid datetimes", "why_tests_cant": "All pairs, including sub-second differences.", "anchors": ["src/contracting/stdlib/bridge/time.py:Datetime.__sub__"]}
{"id": "C28", "title": "Hash keys are validated", "statement": "A hash access succeeds only for at most 16 key parts, none containing ':' or '.', with a joined key of at most 1024 characters; otherwise it raises and neither reads nor writes anything.", "quantifier": "all key tuples, all states", "why_tests_cant": "Universal over keys, plus frame on the whole state.", "anchors": ["src/contracting/storage/orm.py:Hash._validate_key", "src/contracting/storage/orm.py:Hash.__setitem__", "src/contracting/storage/orm.py:Hash.__getitem__"]}
{"id": "C29", "title": "Different key tuples are different entries", "statement": "Two non-empty tuples of string parts accepted by a hash address the same entry only if they are equal; a write to one never changes what the other reads.", "quantifier": "all pairs of accepted key tuples", "why_tests_cant": "Collisions need specific pairs.", "anchors": ["src/contracting/storage/orm.py:Hash._validate_key", "src/contracting/storage/orm.py:Hash._set"]}
{"id": "C30", "title": "A hash behaves like a map with a default", "statement": "h[k] = v followed by any writes to other keys and then h[k] returns v; an entry never written returns the default value; reading never changes any entry.", "quantifier": "all sequences of hash operations on any number of hashes and variables", "why_tests_cant": "Universal over operation sequences.", "anchors": ["src/contracting/storage/orm.py:Hash", "src/contracting/storage/orm.py:Variable"]}
{"id": "C31", "title": "Contracts' storage is separate by declaration", "statement": "Variables and hashes declared by assignment in contracts with different dot-free names, or with different names in the same contract, never address the same key.", "quantifier": "all contract names, variable names and key tuples", "why_tests_cant": "All pairs.", "anchors": ["src/contracting/storage/orm.py:Datum", "src/contracting/storage/driver.py:Driver.make_key", "src/contracting/compilation/compiler.py:ContractingCompiler.visit_Assign"]}
{"id": "C32", "title": "A contract can only write its own storage", "statement": "No code accepted by the linter can write an entry of another contract's variables or hashes.", "quantifier": "all accepted contract sources", "why_tests_cant": "Universal over programs.", "anchors": ["src/contracting/compilation/linter.py:Linter.visit_Assign", "src/contracting/compilation/linter.py:Linter.visit_Call", "src/contracting/storage/orm.py:Hash.__setitem__"]}
{"id": "C33", "title": "Foreign variables and hashes are read only", "statement": "Every write operation on a ForeignVariable or ForeignHash raises and leaves the whole state unchanged; reads return exactly what the owning contract's variable or hash reads.", "quantifier": "all states, keys and values", "why_tests_cant": "Frame over the whole state.", "anchors": ["src/contracting/storage/orm.py:ForeignVariable", "src/contracting/storage/orm.py:ForeignHash"]}
{"id": "C34", "title": "Typed variables only ever hold their type", "statement": "If a Variable is declared with a type, set with a value of another type raises and changes nothing; a successful set stores a value of that type or None.", "quantifier": "all states, declared types and values", "why_tests_cant": "All values.", "anchors": ["src/contracting/storage/orm.py:Variable.set"]}
{"id": "C35", "title": "Events are well-formed", "statement": "A LogEvent can be emitted only with exactly its declared arguments, each of a declared type and at most 1024 UTF-8 bytes; at most three are indexed; the recorded event partitions the arguments into indexed and non-indexed ones and names contract, signer and caller of the running context.", "quantifier": "all event declarations and data", "why_tests_cant": "All declarations and data dictionaries.", "anchors": ["src/contracting/storage/orm.py:LogEvent.__init__", "src/contracting/storage/orm.py:LogEvent.write_event"]}
{"id": "C36", "title": "Call context is right at every call", "statement": "Inside every exported function ctx.this is the contract the function belongs to, ctx.signer and ctx.entry are those of the transaction, and ctx.caller is the contract that made the innermost call crossing into this contract (the sender for the entry contract).", "quantifier": "all call trees, any depth below the context limit, including re-entrancy", "why_tests_cant": "Universal over call trees.", "anchors": ["src/contracting/execution/runtime.py:Context", "src/contracting/stdlib/bridge/access.py:__export"]}
{"id": "C37", "title": "Call context is restored", "statement": "When an exported call returns or raises, the context is exactly what it was before the call; after any transaction, successful or failed at any point, the context stack is empty.", "quantifier": "all call trees and all failure points", "why_tests_cant": "Failure points are unbounded; includes failing owner checks.", "anchors": ["src/contracting/stdlib/bridge/access.py:__export.__enter__", "src/contracting/stdlib/bridge/access.py:__export.__exit__", "src/contracting/execution/runtime.py:Context._pop_state"]}
{"id": "C38", "title": "Owned contracts run only for their owner", "statement": "If a contract has an owner, the body of an exported function of it runs only when it is entered from the owner (as transaction sender or as calling contract).", "quantifier": "all call trees and owner assignments", "why_tests_cant": "Universal over call trees.", "anchors": ["src/contracting/stdlib/bridge/access.py:__export.__enter__", "src/contracting/execution/executor.py:Executor.execute"]}
{"id": "C39", "title": "Running code always runs under its own context", "statement": "Whenever code of a contract runs because another contract called one of its functions, ctx.this is that contract.", "quantifier": "all accepted contract sources and call trees", "why_tests_cant": "Universal over programs.", "anchors": ["src/contracting/compilation/compiler.py:ContractingCompiler.visit_FunctionDef", "src/contracting/stdlib/bridge/access.py:__export", "src/contracting/compilation/linter.py:Linter.visit_Assign"]}
{"id": "C40", "title": "Metered cost never passes the limit unnoticed", "statement": "While metering is on, as soon as the accumulated cost exceeds the supplied stamps (times 1000) or the global maximum the running transaction raises; a metered execution that completes has cost at most both limits and at most 800000 traced lines.", "quantifier": "all sequences of traced lines and writes", "why_tests_cant": "Unbounded executions.", "anchors": ["src/contracting/execution/tracer.py:Tracer.trace_func", "src/contracting/execution/tracer.py:Tracer.add_cost"]}
{"id": "C41", "title": "Writes per transaction are bounded", "statement": "In a metered transaction the total of key and value bytes written (state and events) is below 131072 and each byte costs 25; the write that would reach the limit raises and is not stored.", "quantifier": "all sequences of writes", "why_tests_cant": "Unbounded sequences.", "anchors": ["src/contracting/execution/runtime.py:Runtime.deduct_write", "src/contracting/storage/driver.py:Driver.set", "src/contracting/storage/orm.py:LogEvent.write_event"]}
{"id": "C42", "title": "Metering cannot be switched off by the contract", "statement": "No contract code can continue running after the tracer has signalled that a limit was exceeded.", "quantifier": "all contract programs, including those calling the standard library", "why_tests_cant": "Universal over programs; depends on where the signal is raised.", "anchors": ["src/contracting/stdlib/bridge/crypto.py:verify", "src/contracting/execution/tracer.py:Tracer.trace_func", "src/contracting/compilation/linter.py:Linter.generic_visit"]}
{"id": "C43", "title": "Fee bounds", "statement": "For every metered execution 0 <= stamps_used <= stamps supplied, stamps_used = min(cost/1000 + 5, stamps), and the fee balance after the transaction is max(balance - stamps_used/rate, 0): it is never negative and no other account's balance is touched by the fee.", "quantifier": "all transactions, balances and rates", "why_tests_cant": "All programs and states.", "anchors": ["src/contracting/execution/executor.py:Executor.execute"]}
{"id": "C44", "title": "The fee is always paid in full", "statement": "A metered transaction that was admitted pays exactly stamps_used/rate.", "quantifier": "all transactions", "why_tests_cant": "Depends on what the contract does with the sender's balance.", "anchors": ["src/contracting/execution/executor.py:Executor.execute"]}
{"id": "C45", "title": "A failed transaction changes nothing but the fee", "statement": "If execution fails for any reason, the pending state after execute equals the pending state before it, except for the sender's fee balance when metering is on; the reported writes and events contain nothing else.", "quantifier": "all contract programs, failure points and prior states (no auto-commit, executor's own driver)", "why_tests_cant": "Every failure point of every program.", "anchors": ["src/contracting/execution/executor.py:Executor.execute"]}
{"id": "C46", "title": "A failed transaction with an explicit driver", "statement": "The same holds when execute is given a driver argument.", "quantifier": "all pairs of drivers", "why_tests_cant": "State of two drivers at once.", "anchors": ["src/contracting/execution/executor.py:Executor.execute"]}
{"id": "C47", "title": "A failed auto-commit keeps earlier transactions", "statement": "If an auto-commit execution fails, uncommitted effects of earlier successful transactions are not lost.", "quantifier": "all histories", "why_tests_cant": "Needs histories mixing both modes.", "anchors": ["src/contracting/execution/executor.py:Executor.execute", "src/contracting/storage/driver.py:Driver.flush_cache"]}
{"id": "C48", "title": "Reported writes are exactly what changed", "statement": "After a successful transaction the reported writes are exactly the keys whose pending value the transaction set, with their final values, plus the fee balance when metered; nothing of earlier transactions leaks in.", "quantifier": "all programs and histories", "why_tests_cant": "All programs; aliasing of dictionaries between transactions.", "anchors": ["src/contracting/execution/executor.py:Executor.execute", "src/contracting/storage/driver.py:Driver.set", "src/contracting/storage/orm.py:Hash.clear"]}
{"id": "C49", "title": "Events are reported once, in order, only on success", "statement": "A successful transaction reports exactly the events it emitted, in order; a failed one reports none; none is reported again by a later transaction.", "quantifier": "all programs and histories", "why_tests_cant": "All programs and histories.", "anchors": ["src/contracting/execution/executor.py:Executor.execute", "src/contracting/storage/driver.py:Driver.set_event"]}
{"id": "C50", "title": "Execution is deterministic", "statement": "execute's status, result, writes, events, stamps and resulting state are a function of the transaction, the environment and the readable state only, not of cache contents, earlier transactions' leftovers or tracer state.", "quantifier": "all transactions and pairs of drivers that read the same", "why_tests_cant": "Relational (two-run) property.", "anchors": ["src/contracting/execution/executor.py:Executor.execute", "src/contracting/execution/runtime.py:Runtime.clean_up"]}
{"id": "C51", "title": "Private functions cannot be called from outside", "statement": "execute refuses every function name starting with '__' and changes no state, unless the executor was created to bypass this; every undecorated function of a compiled contract has such a name.", "quantifier": "all contracts, function names and states", "why_tests_cant": "Universal over programs.", "anchors": ["src/contracting/execution/executor.py:Executor.execute", "src/contracting/compilation/compiler.py:ContractingCompiler.visit_FunctionDef", "src/contracting/client.py:AbstractContract.run_private_function"]}
{"id": "C52", "title": "Only deployed contracts are executed", "statement": "execute runs only functions of contracts stored in the database.", "quantifier": "all contract names, including names of loaded Python modules", "why_tests_cant": "The set of names is unbounded.", "anchors": ["src/contracting/execution/executor.py:Executor.execute", "src/contracting/execution/module.py:DatabaseFinder.find_spec"]}
{"id": "C53", "title": "Lint rejects every forbidden construct anywhere", "statement": "A source accepted by the linter contains, at any depth, no node of the forbidden kinds (classes, async, try, with, lambda, yield, generators, global/nonlocal, from-imports, matrix product), no name or attribute starting or ending with '_' or equal to 'rt', no reference to a forbidden builtin (float as a name aside), at most one constructor, only export/construct decorators and at least one export.", "quantifier": "all syntax trees of any depth", "why_tests_cant": "Unbounded trees.", "anchors": ["src/contracting/compilation/linter.py:Linter.check", "src/contracting/compilation/linter.py:Linter.generic_visit", "src/contracting/compilation/whitelists.py:ILLEGAL_AST_TYPES"]}
{"id": "C54", "title": "The linter is an allow-list", "statement": "A source accepted by the linter contains only node kinds from the allowed list.", "quantifier": "all syntax trees", "why_tests_cant": "Unbounded trees.", "anchors": ["src/contracting/compilation/linter.py:Linter.ast_types", "src/contracting/compilation/whitelists.py:ALLOWED_AST_TYPES"]}
{"id": "C55", "title": "Lint findings do not depend on history", "statement": "Checking a tree gives the same verdict whatever was checked before with the same linter, and the reported violations are sorted by line.", "quantifier": "all sequences of checks", "why_tests_cant": "Histories.", "anchors": ["src/contracting/compilation/linter.py:Linter._reset", "src/contracting/compilation/linter.py:Linter.check"]}
{"id": "C56", "title": "No nested imports or functions", "statement": "An accepted source has no import statement and no function definition inside a function, at any depth.", "quantifier": "all syntax trees", "why_tests_cant": "Unbounded trees.", "anchors": ["src/contracting/compilation/linter.py:Linter.no_nested_imports", "src/contracting/compilation/linter.py:Linter.visit_FunctionDef"]}
{"id": "C57", "title": "Exports are annotated, returns are not", "statement": "In an accepted source every argument of an exported function carries an allowed annotation and no exported function has a return annotation.", "quantifier": "all syntax trees", "why_tests_cant": "Unbounded trees.", "anchors": ["src/contracting/compilation/linter.py:Linter.annotation_types", "src/contracting/compilation/linter.py:Linter.check_return_types"]}
{"id": "C58", "title": "Compilation renames consistently", "statement": "In compiled code every undecorated function is renamed with '__', the constructor is '____', every export carries the module's own name, every ORM assignment carries contract and variable name, float literals become decimal calls, and every use of a renamed name is renamed the same way while all other names are unchanged.", "quantifier": "all syntax trees accepted by the linter", "why_tests_cant": "Unbounded trees.", "anchors": ["src/contracting/compilation/compiler.py:ContractingCompiler.parse", "src/contracting/compilation/compiler.py:ContractingCompiler.visit_FunctionDef", "src/contracting/compilation/compiler.py:ContractingCompiler.visit_Assign"]}
{"id": "C59", "title": "Compilation does not change which variable a name means", "statement": "A name that refers to a function argument in the source still refers to that argument in the compiled code.", "quantifier": "all accepted syntax trees", "why_tests_cant": "Depends on coincidence of names.", "anchors": ["src/contracting/compilation/compiler.py:ContractingCompiler.parse"]}
{"id": "C60", "title": "methods_for_contract lists exactly the public functions", "statement": "For a compiled contract methods_for_contract returns exactly the exported functions with their argument names, in order.", "quantifier": "all compiled trees", "why_tests_cant": "Unbounded trees.", "anchors": ["src/contracting/compilation/parser.py:methods_for_contract"]}
{"id": "C61", "title": "Contract code is write-once", "statement": "Once a contract has code, no later submission under that name changes its code, owner, developer or submission time, whatever happens in between except explicit deletion.", "quantifier": "all histories of submissions, commits and rollbacks", "why_tests_cant": "Histories.", "anchors": ["src/contracting/storage/contract.py:Contract.submit", "src/contracting/storage/driver.py:Driver.set_contract"]}
{"id": "C62", "title": "Submission naming rules", "statement": "A successful submit_contract by anyone but 'sys' created a name starting with 'con_', lower-case, at most 64 characters, that did not exist, called directly by the transaction signer.", "quantifier": "all names, callers and states", "why_tests_cant": "All names.", "anchors": ["src/contracting/contracts/submission.s.py:submit_contract", "src/contracting/storage/contract.py:Contract.submit"]}
{"id": "C63", "title": "Every accepted submission can be committed", "statement": "State produced by a successful submission can always be committed.", "quantifier": "all accepted contract names", "why_tests_cant": "Names are unbounded; failure shows only at commit.", "anchors": ["src/contracting/contracts/submission.s.py:submit_contract", "src/contracting/storage/driver.py:Driver.__filename_to_path", "src/contracting/storage/hdf5.py:set"]}
{"id": "C64", "title": "Only the developer can hand over a contract", "statement": "change_developer succeeds only for the current developer, and changes nothing but the developer entry.", "quantifier": "all callers, contracts and states", "why_tests_cant": "Frame over the whole state.", "anchors": ["src/contracting/contracts/submission.s.py:change_developer"]}
{"id": "C65", "title": "set_submission_contract replaces the submission contract", "statement": "After set_submission_contract(filename) the stored submission code is the file's content.", "quantifier": "all prior states", "why_tests_cant": "Depends on whether the previous code was committed.", "anchors": ["src/contracting/client.py:ContractingClient.set_submission_contract", "src/contracting/storage/driver.py:Driver.delete_contract"]}
{"id": "C66", "title": "Contract imports are confined", "statement": "An import statement or importlib.import_module in contract code yields only a module loaded from a contract stored in the database; every other name raises.", "quantifier": "all names and database states", "why_tests_cant": "All names.", "anchors": ["src/contracting/execution/module.py:restricted_import", "src/contracting/stdlib/bridge/imports.py:import_module", "src/contracting/execution/module.py:DatabaseFinder"]}
{"id": "C67", "title": "Interface enforcement", "statement": "enforce_interface(m, spec) is true exactly when each spec entry is present in the module and, if it is a function (or variable), has the required name and argument names (or type).", "quantifier": "all modules and interface lists", "why_tests_cant": "All modules.", "anchors": ["src/contracting/stdlib/bridge/imports.py:enforce_interface", "src/contracting/stdlib/bridge/imports.py:Func.is_of", "src/contracting/stdlib/bridge/imports.py:Var.is_of"]}
{"id": "C68", "title": "Randomness requires seeding in the same transaction", "statement": "Every random function raises unless seed() was called earlier in the same transaction; no seeding survives into the next transaction.", "quantifier": "all histories of transactions", "why_tests_cant": "Histories.", "anchors": ["src/contracting/stdlib/bridge/random.py:Seeded", "src/contracting/execution/executor.py:Executor.execute"]}
{"id": "C69", "title": "Random results are a function of block, input and salt", "statement": "The random stream after seed() depends only on block number, block hash, input hash and salt of the environment.", "quantifier": "all environments and histories", "why_tests_cant": "Two-run property.", "anchors": ["src/contracting/stdlib/bridge/random.py:seed"]}
{"id": "C70", "title": "Different blocks give different seeds", "statement": "Environments that differ in block number, block hash, input hash or salt produce different seed strings.", "quantifier": "all pairs of environments", "why_tests_cant": "Collision needs a pair.", "anchors": ["src/contracting/stdlib/bridge/random.py:seed"]}
{"id": "C71", "title": "Concurrent writers of one file do not interleave", "statement": "Under any schedule of threads setting and deleting keys, the final stored value of each key is that of one of the writes, namely the last in the order in which the file lock was taken.", "quantifier": "all schedules of any number of threads", "why_tests_cant": "Schedules.", "anchors": ["src/contracting/storage/hdf5.py:set", "src/contracting/storage/hdf5.py:delete", "src/contracting/storage/hdf5.py:get_file_lock"]}
{"id": "C72", "title": "A concurrent reader sees an old or a new value", "statement": "A reader running concurrently with writers returns a value that some completed or running write stored, or the initial one; never 'missing' for a key that always had a value.", "quantifier": "all schedules", "why_tests_cant": "Schedules.", "anchors": ["src/contracting/storage/hdf5.py:get_attr", "src/contracting/storage/hdf5.py:_write_attr_to_file"]}
{"id": "C73", "title": "Compilation does not depend on what was compiled before", "statement": "Compiling a source gives the same result, or the same error, whatever was compiled before with the same compiler.", "quantifier": "all sources and histories of compilations", "why_tests_cant": "Histories.", "anchors": ["src/contracting/compilation/compiler.py:ContractingCompiler.parse", "src/contracting/compilation/compiler.py:ContractingCompiler.visit_FunctionDef"]}
{"id": "C74", "title": "variables_for_contract lists exactly the declared variables and hashes", "statement": "For a compiled contract variables_for_contract returns exactly the names of the declared variables and hashes, and does not raise.", "quantifier": "all accepted sources", "why_tests_cant": "All sources.", "anchors": ["src/contracting/compilation/parser.py:variables_for_contract"]}
{"id": "C75", "title": "File locks cause no deadlock and are given back", "statement": "Under any schedule of threads using set, delete and get_value, some thread that is not finished can always go on without a timeout; every schedule ends, and then every operation has been answered and no lock is held.", "quantifier": "all schedules of any number of threads", "why_tests_cant": "Schedules; deadlocks are rare events.", "anchors": ["src/contracting/storage/hdf5.py:set", "src/contracting/storage/hdf5.py:delete", "src/contracting/storage/hdf5.py:get_file_lock"]}
{"id": "C76", "title": "Private functions stay private", "statement": "After run_private_function, whether it returned or raised, calls of functions whose name starts with '__' are refused again and change nothing.", "quantifier": "all contracts, functions, arguments and states", "why_tests_cant": "Depends on whether the contract raises.", "anchors": ["src/contracting/client.py:AbstractContract.run_private_function", "src/contracting/execution/executor.py:Executor.execute"]}
{"id": "C77", "title": "A client call sees the time of the call", "statement": "A call through the client without explicit time or environment runs with 'now' equal to the time of the call.", "quantifier": "all histories of calls", "why_tests_cant": "Histories.", "anchors": ["src/contracting/client.py:AbstractContract._abstract_function_call", "src/contracting/client.py:ContractingClient.__init__"]}
{"id": "C78", "title": "quick_write is durable and touches nothing else", "statement": "After quick_write(variable, key, value) both quick_read and a new Driver read the stored form of the value, and no other key is committed.", "quantifier": "all states, keys and values", "why_tests_cant": "All states and values.", "anchors": ["src/contracting/client.py:AbstractContract.quick_write", "src/contracting/client.py:AbstractContract.quick_read"]}
{"id": "C79", "title": "get_contracts lists exactly the stored contracts", "statement": "get_contracts() returns exactly the names that have stored code.", "quantifier": "all states", "why_tests_cant": "Depends on what is pending, cached and committed.", "anchors": ["src/contracting/client.py:ContractingClient.get_contracts", "src/contracting/storage/driver.py:Driver.keys"]}
{"id": "C80", "title": "flush leaves only the submission contract", "statement": "After flush() nothing is readable but the code, compiled code and submission time of the submission contract, whatever was stored, cached or pending before.", "quantifier": "all prior states and all keys", "why_tests_cant": "Quantifies over all keys and states.", "anchors": ["src/contracting/client.py:ContractingClient.flush", "src/contracting/storage/driver.py:Driver.flush_full"]}
{"id": "C81", "title": "Hashes of different texts differ", "statement": "hashlib.sha3 and hashlib.sha256 return the lower case hexadecimal form of the hash of what the text stands for (the bytes it spells in hexadecimal, else its UTF-8 bytes), and two different texts have the same hash only if the hash function has a collision.", "quantifier": "all texts and all hash functions", "why_tests_cant": "All texts; collisions need a pair.", "anchors": ["src/contracting/stdlib/bridge/hashing.py:sha3", "src/contracting/stdlib/bridge/hashing.py:sha256"]}
{"id": "C82", "title": "Valid keys", "statement": "crypto.key_is_valid(key) is true exactly for texts of 64 hexadecimal digits.", "quantifier": "all texts", "why_tests_cant": "All texts.", "anchors": ["src/contracting/stdlib/bridge/crypto.py:key_is_valid"]}
{"id": "C83", "title": "Signature verification answers", "statement": "crypto.verify(vk, msg, signature) returns whether the signature is valid for the UTF-8 bytes of the message under the key, and raises only if vk or signature is not hexadecimal or has the wrong length, or msg has no UTF-8 form.", "quantifier": "all texts and all signature schemes", "why_tests_cant": "All texts.", "anchors": ["src/contracting/stdlib/bridge/crypto.py:verify"]}
{"id": "C84", "title": "Random bits", "statement": "After seed(), random.getrandbits(k) returns an integer from 0 to 2^k - 1 in which each of the k bits is one draw, for every k >= 0; without seed() it raises.", "quantifier": "all k and all outcomes of the generator", "why_tests_cant": "All k and all draws.", "anchors": ["src/contracting/stdlib/bridge/random.py:getrandbits"]}
{"id": "C85", "title": "Rounding decimals", "statement": "int(x) is the whole part of x, round(x) is the nearest whole number (half to even) and round(x, n) the nearest decimal with n digits after the point.", "quantifier": "all contract decimals and all n", "why_tests_cant": "All values.", "anchors": ["src/contracting/stdlib/bridge/decimal.py:ContractingDecimal.__round__", "src/contracting/stdlib/bridge/decimal.py:ContractingDecimal.__int__"]}
{"id": "C86", "title": "Decimals do not depend on the thread", "statement": "Converting text to a contract decimal, as reading a stored decimal, computing a fee and checking a balance do, gives the same result in every thread of the process.", "quantifier": "all texts", "why_tests_cant": "All texts; tests run in one thread.", "anchors": ["src/contracting/stdlib/bridge/decimal.py:CONTEXT", "src/contracting/stdlib/bridge/decimal.py:fix_precision", "src/contracting/storage/encoder.py:as_object", "src/contracting/execution/executor.py:Executor.execute"]}
{"id": "C87", "title": "A contract object passes arguments as given", "statement": "Calling a function of a contract object returned by get_contract runs the contract's function with exactly the keyword arguments given, and its declared defaults for the others; get_contract works for every accepted contract.", "quantifier": "all contracts, functions and arguments", "why_tests_cant": "All names of arguments.", "anchors": ["src/contracting/client.py:AbstractContract.__init__", "src/contracting/client.py:AbstractContract._abstract_function_call", "src/contracting/client.py:ContractingClient.get_contract"]}
{"id": "C88", "title": "Storage is declared under its own name", "statement": "In accepted code a Variable, Hash or event is created only by assigning it to one name, which becomes its storage name in the contract's own storage; the classes cannot be given other names.", "quantifier": "all syntax trees", "why_tests_cant": "Unbounded trees.", "anchors": ["src/contracting/compilation/linter.py:Linter.visit_Assign", "src/contracting/compilation/compiler.py:ContractingCompiler.visit_Assign"]}
{"id": "C89", "title": "The contract state dump is the committed state", "statement": "get_all_contract_state returns every committed entry of every contract with its value, and nothing else.", "quantifier": "all histories of the storage", "why_tests_cant": "All histories.", "anchors": ["src/contracting/storage/driver.py:Driver.get_all_contract_state", "src/contracting/storage/hdf5.py:get_all_keys_from_file"]}
{"id": "C90", "title": "The run state dump is the committed run state", "statement": "get_run_state returns every committed entry of the run state with its value, and nothing else.", "quantifier": "all histories of the storage and all storage directories", "why_tests_cant": "All histories.", "anchors": ["src/contracting/storage/driver.py:Driver.get_run_state", "src/contracting/storage/hdf5.py:get_groups"]}
{"id": "C91", "title": "keys_from_disk lists the stored keys", "statement": "keys_from_disk(prefix, length) returns the stored keys that start with the prefix, sorted, without duplicates, and no more than length of them if that is positive.", "quantifier": "all histories of the storage, all prefixes and lengths", "why_tests_cant": "All histories.", "anchors": ["src/contracting/storage/driver.py:Driver.keys_from_disk", "src/contracting/storage/hdf5.py:get_groups"]}
{"id": "C92", "title": "delete_contract deletes the contract and nothing else", "statement": "After delete_contract(name) no entry of the contract can be read, now or after a restart, and every other entry reads as before.", "quantifier": "all driver states and names", "why_tests_cant": "All states.", "anchors": ["src/contracting/storage/driver.py:Driver.delete_contract", "src/contracting/storage/driver.py:Driver.delete_key_from_disk", "src/contracting/storage/driver.py:Driver.items"]}
{"id": "C93", "title": "Reported reads", "statement": "The reads in the output of execute are exactly the keys the transaction read or wrote, each with its value before the transaction.", "quantifier": "all transactions, states and histories", "why_tests_cant": "All programs and histories.", "anchors": ["src/contracting/execution/executor.py:Executor.execute", "src/contracting/storage/driver.py:Driver.get", "src/contracting/storage/driver.py:Driver.set"]}
{"id": "C94", "title": "Admission", "statement": "A metered transaction is admitted exactly if the sender's balance times the rate is at least the stamps supplied; if it is not, no contract code runs, the transaction fails, and it writes nothing but the sender's balance.", "quantifier": "all balances that are None, ints or contract decimals not below 0, and all stamps and rates up to 10^29", "why_tests_cant": "All amounts, with the rounding and clamping of contract decimals.", "anchors": ["src/contracting/execution/executor.py:Executor.execute", "src/contracting/stdlib/bridge/decimal.py:ContractingDecimal"]}
{"id": "C95", "title": "Metered transactions end", "statement": "Whatever contract code does, a metered transaction executes at most 800001 lines, of which at most 1000 times the stamps plus one are lines of contract code, whether it succeeds or fails.", "quantifier": "all contract programs, all transactions and states", "why_tests_cant": "All programs; an endless loop cannot be tested.", "anchors": ["src/contracting/execution/tracer.py:Tracer.trace_func", "src/contracting/execution/executor.py:Executor.execute", "src/contracting/execution/module.py:DatabaseLoader.exec_module"]}
{"id": "C96", "title": "Operators on dates and durations", "statement": "A date plus a duration, in either order, and a date minus a duration are the date that much later or earlier; dates subtract to durations; durations add, subtract and multiply by whole numbers in either order; == between values of different types is False; every other combination is a TypeError.", "quantifier": "all dates, durations and values of any other type, on either side of every operator", "why_tests_cant": "All pairs of values.", "anchors": ["src/contracting/stdlib/bridge/time.py:Datetime.__sub__", "src/contracting/stdlib/bridge/time.py:Datetime.__eq__", "src/contracting/stdlib/bridge/time.py:Timedelta.__sub__", "src/contracting/stdlib/bridge/time.py:Timedelta.__mul__"]}
{"id": "C97", "title": "Random choices", "statement": "After seed(), random.randrange, randint, choice, choices and shuffle give only numbers of the range, elements of the list, or an order of the list; every one of them is possible and, if the generator's bits are, equally likely; empty ranges and lists are errors; without seed() they raise and draw nothing.", "quantifier": "all arguments and everything the generator can draw", "why_tests_cant": "All draws, lists and ranges.", "anchors": ["src/contracting/stdlib/bridge/random.py:shuffle", "src/contracting/stdlib/bridge/random.py:randrange", "src/contracting/stdlib/bridge/random.py:randint", "src/contracting/stdlib/bridge/random.py:choice", "src/contracting/stdlib/bridge/random.py:choices"]}
{"id": "C98", "title": "Dates from text", "statement": "datetime.strptime(text, format) with the directives %Y %m %d %H %M %S %f and %% gives only a valid date whose fields are the numbers the text has at the places of the directives, with 1 January 1900 0:00 for the fields that are missing; it reads every text in which the numbers have their full width, among them str(date); otherwise it raises ValueError, or another exception if a directive is repeated.", "quantifier": "all texts and formats with these directives, digits of every script", "why_tests_cant": "All texts and formats; the matching backtracks.", "anchors": ["src/contracting/stdlib/bridge/time.py:Datetime.strptime", "src/contracting/stdlib/bridge/time.py:Datetime.__str__"]}
{"id": "C99", "title": "Stored values do not change by themselves", "statement": "What a key reads as changes only through a write, a delete, a commit, a hard apply, a rollback or a flush: changing in place a list or dict that was stored or that was read from storage changes neither what any key reads as nor what is written to disk, a failed transaction leaves every key as it was, dropping cache entries is invisible, and what reaches the disk is what was charged for.", "quantifier": "all sequences of reads, writes, object creations, in-place changes, transactions, commits and rollbacks", "why_tests_cant": "All histories of shared objects; the aliasing shows only when a list is kept and changed after the call.", "anchors": ["src/contracting/storage/driver.py:Driver.get", "src/contracting/storage/driver.py:Driver.set", "src/contracting/storage/driver.py:Driver.find", "src/contracting/storage/driver.py:Driver.commit", "src/contracting/storage/driver.py:Driver.hard_apply", "src/contracting/execution/executor.py:Executor.execute"]}
{"id": "C100", "title": "A failed transaction gives the pending writes back", "statement": "After a transaction fails, every key with a pending value when it started has exactly that value again, even if the transaction's code changed that very object in place, stored it elsewhere, or committed, rolled back or flushed.", "quantifier": "all histories before the transaction and all code in it", "why_tests_cant": "All histories and all object graphs; rests on the deep copy being out of the code's reach.", "anchors": ["src/contracting/execution/executor.py:Executor.execute", "src/contracting/storage/driver.py:Driver.get", "src/contracting/storage/driver.py:Driver.set"]}
{"id": "C101", "title": "Operators between a decimal and any value", "statement": "Between a decimal and any number (int, bool, float or decimal, on either side) the arithmetic operators give the exact result rounded down to 30 places and the comparisons are those of the numbers; with any value that is not a number arithmetic and ordering raise TypeError and == is False.", "quantifier": "all operators, all decimals, all other operands of every stored type, both sides", "why_tests_cant": "All pairs of operand values; the failures are in rare operand types.", "anchors": ["src/contracting/stdlib/bridge/decimal.py:ContractingDecimal._get_other", "src/contracting/stdlib/bridge/decimal.py:ContractingDecimal.__add__", "src/contracting/stdlib/bridge/decimal.py:ContractingDecimal.__rsub__", "src/contracting/stdlib/bridge/decimal.py:ContractingDecimal.__eq__", "src/contracting/stdlib/bridge/decimal.py:neg_sci_not"]}
{"id": "C102", "title": "What a contract's import runs", "statement": "An import statement in contract code succeeds only for contracts, and runs no code but that of contracts, whether it succeeds or is refused, whatever dotted name it has.", "quantifier": "all names, installations of Python modules and contracts, states of sys.modules", "why_tests_cant": "All names and module systems; the code that runs before the refusal is that of the name's parents.", "anchors": ["src/contracting/execution/module.py:restricted_import", "src/contracting/execution/module.py:DatabaseFinder.find_spec", "src/contracting/compilation/linter.py:Linter.visit_Import", "src/contracting/execution/executor.py:Executor.execute"]}
{"id": "C103", "title": "Attributes of a contract object", "statement": "For a contract object of the client, contract.x is the Variable x if the contract has stored x (just its value if x begins with '__'), the Hash x if it has stored an entry of x, and raises AttributeError otherwise, before and after commits; looking changes nothing that reads return.", "quantifier": "all contracts, names, stored states, histories of commits, set iteration orders", "why_tests_cant": "All names and storage states; the tests look only before a commit, where it works.", "anchors": ["src/contracting/client.py:AbstractContract.__getattr__", "src/contracting/client.py:AbstractContract.keys", "src/contracting/storage/driver.py:Driver.items", "src/contracting/storage/driver.py:Driver.iter_from_disk"]}
{"id": "C104", "title": "Only a contract's own functions change its storage", "statement": "Let no other contract's code address the storage of contract c directly (by a foreign Hash or Variable declared with the name of c).  Then every relation between the stored states of c that c's own functions preserve, calls to other contracts and re-entrant calls included, is preserved by every history of transactions, which may submit, import and call any contracts, fail, or call the submission contract; apart from the fee account, if fees are taken from c.  A contract none of whose functions write never changes.", "quantifier": "all contracts, relations, other contracts' code, contracts submitted on the way, histories of transactions of any length", "why_tests_cant": "All histories and all other contracts, including ones not written yet.", "anchors": ["src/contracting/execution/executor.py:Executor.execute", "src/contracting/storage/driver.py:Driver.set", "src/contracting/storage/orm.py:Hash", "src/contracting/execution/module.py:DatabaseLoader.exec_module", "src/contracting/contracts/submission.s.py:submit_contract", "src/contracting/storage/contract.py:Contract.submit"]}
{"id": "C105", "title": "Loaded code does not outlive its transaction", "statement": "When a transaction returns, with either status, every contract module in sys.modules was there before it started, unchanged; so with none loaded at first, every transaction of a history executes the code that is stored when it runs.", "quantifier": "all states, transactions and histories", "why_tests_cant": "All import orders, nested calls and failures in the middle of an import.", "anchors": ["src/contracting/execution/runtime.py:Runtime.clean_up", "src/contracting/execution/module.py:DatabaseLoader.exec_module", "src/contracting/execution/executor.py:Executor.execute"]}
{"id": "C106", "title": "A token's supply is conserved", "statement": "For the token contract of the README (repaired: default balance 0, declared allowances to which approve adds, amounts made decimals, no mint), the sum of all balances is the same after any history of transactions, none of which makes a balance negative, if fees are taken from another contract; if fees are taken from the token's balances, each transaction destroys at most the fee, and the sum never grows.", "quantifier": "all amounts, accounts, allowances, other contracts calling the token, histories of transactions, fees", "why_tests_cant": "All histories and amounts, with rounding and clamping of decimals; every int, decimal or missing balance.", "anchors": ["README.md:transfer", "README.md:transfer_from", "src/contracting/stdlib/bridge/decimal.py:ContractingDecimal", "src/contracting/storage/orm.py:Hash", "src/contracting/execution/executor.py:Executor.execute"]}
{"id": "C107", "title": "A contract object calls the function asked for", "statement": "For every contract that can be stored, object.f(...) of the object client.get_contract(name) returns runs the function f of the contract name, signed by the client's signer unless another is given, with the arguments given and None for the others.", "quantifier": "all contracts, function names, argument names, calls and options", "why_tests_cant": "All function names a contract may have, including those the object uses itself.", "anchors": ["src/contracting/client.py:AbstractContract.__init__", "src/contracting/client.py:AbstractContract._abstract_function_call", "src/contracting/client.py:AbstractContract.now", "src/contracting/client.py:ContractingClient.get_contract"]}
{"id": "C108", "title": "Clients of one process are independent", "statement": "Calls through one client, with its own driver, do not change what calls through another client of the same process answer or store.", "quantifier": "all numbers of clients, contracts, calls and orders of calls", "why_tests_cant": "All interleavings of calls through several clients that share the runtime and default arguments.", "anchors": ["src/contracting/client.py:ContractingClient.__init__", "src/contracting/client.py:AbstractContract._abstract_function_call", "src/contracting/execution/executor.py:Executor.execute", "src/contracting/execution/runtime.py:Runtime"]}
{"id": "C109", "title": "A report does not change after it was returned", "statement": "The dict execute returned shows the reads, writes and events of its transaction for ever: later transactions, commits and rollbacks do not change it.", "quantifier": "all transactions and all later uses of the executor and the driver", "why_tests_cant": "All later histories.", "anchors": ["src/contracting/execution/executor.py:Executor.execute", "src/contracting/storage/driver.py:Driver.commit", "src/contracting/storage/driver.py:Driver.rollback", "src/contracting/storage/driver.py:Driver.hard_apply"]}
{"id": "C110", "title": "execute leaves its arguments alone", "statement": "The kwargs dict passed to execute is the same after it returned as before.", "quantifier": "all transactions, states and arguments", "why_tests_cant": "All argument dicts and all ways a transaction can end.", "anchors": ["src/contracting/execution/executor.py:Executor.execute"]}
{"id": "C111", "title": "What is not stored reads as the declared default", "statement": "Reading a Variable or Hash entry under which nothing is stored gives the default value it was declared with, whatever was done to other entries before.", "quantifier": "all defaults, keys, code and states", "why_tests_cant": "All sequences of reads, stores and changes of the objects read.", "anchors": ["src/contracting/storage/orm.py:Variable.get", "src/contracting/storage/orm.py:Hash._get", "src/contracting/storage/driver.py:Driver.get"]}
{"id": "C112", "title": "What a submission stores", "statement": "A transaction (or client.submit) that submits code under a name, when it succeeds, leaves under that name the compiled code, its byte code, the owner that was given, the sender as developer and the time of the transaction, and there was no contract of that name before.", "quantifier": "all submissions, codes, constructors, environments and states", "why_tests_cant": "All behaviours of the submitted code's top level and constructor.", "anchors": ["src/contracting/storage/contract.py:Contract.submit", "src/contracting/storage/driver.py:Driver.set_contract", "src/contracting/contracts/submission.s.py:submit_contract", "src/contracting/client.py:ContractingClient.submit"]}
{"id": "C113", "title": "A dry run leaves no trace", "statement": "Transactions that are executed without committing (to try them out, or to estimate their cost) and then rolled back with driver.rollback() leave no trace: the next transaction, whatever it is, reports the same result, stamps, writes, reads and events, and leaves the same in storage, as if they had not been run.", "quantifier": "all contracts, states, sequences of dry runs of any length and later transactions", "why_tests_cant": "All contracts and all histories of dry runs.", "anchors": ["src/contracting/execution/executor.py:Executor.execute", "src/contracting/storage/driver.py:Driver.rollback", "src/contracting/execution/runtime.py:Runtime.clean_up"]}
{"id": "C114", "title": "The stamp limit cannot be observed", "statement": "If a transaction is reported to have used fewer stamps than its limit, then with any other limit that is at least the stamps reported and that the sender's balance covers, it reports and does exactly the same: same result, stamps, fee, writes, reads, events and state afterwards.  So the stamps reported by a try-out with a high limit are a sufficient limit, and no contract can behave differently depending on the limit.  With a higher limit, what succeeded succeeds with the same result, events and writes.", "quantifier": "all contracts, transactions, states and pairs of limits", "why_tests_cant": "All contract programs and all pairs of limits.", "anchors": ["src/contracting/execution/executor.py:Executor.execute", "src/contracting/execution/tracer.py:Tracer.add_cost", "src/contracting/execution/tracer.py:Tracer.set_stamp", "src/contracting/execution/runtime.py:Runtime.deduct_write"]}
{"id": "C115", "title": "It does not matter when writes are saved", "statement": "For the same sequence of reads and writes, whether, where and how often commit() or hard_apply() is called in between, and what the cache drops, makes no difference: every read and write answers the same, every key reads the same afterwards, the same is charged, and after a final commit() the files read the same.  In particular a block whose transactions are committed together ends like one committed transaction by transaction.", "quantifier": "all sequences of reads and writes, and all sets of commit points in them", "why_tests_cant": "All sequences and all placements of commits.", "anchors": ["src/contracting/storage/driver.py:Driver.commit", "src/contracting/storage/driver.py:Driver.hard_apply", "src/contracting/storage/driver.py:Driver.find", "src/contracting/storage/driver.py:Driver.get", "src/contracting/storage/driver.py:Driver.set"]}
{"id": "C116", "title": "What the flushes remove", "statement": "flush_file(name) makes every key of that file read as absent and leaves every key of other files, and what is pending, as they were; flush_cache() forgets everything that is not stored, so that every key reads as in a new Driver and a commit after it changes nothing; flush_full() leaves no key, no file and nothing pending.", "quantifier": "all Driver histories, all keys and file names", "why_tests_cant": "All histories of writes, commits and flushes, and all keys.", "anchors": ["src/contracting/storage/driver.py:Driver.flush_file", "src/contracting/storage/driver.py:Driver.flush_cache", "src/contracting/storage/driver.py:Driver.flush_disk", "src/contracting/storage/driver.py:Driver.flush_full"]}
{"id": "C117", "title": "What lint accepts compiles", "statement": "client.lint(source) answers None for exactly the sources that client.compile and a submission can compile; its answer depends on the source alone, it leaves the compiler as it was, and with raise_errors it raises for exactly the sources it finds fault with.", "quantifier": "all sources and all states of the client's compiler", "why_tests_cant": "All syntax trees and all histories of the compiler.", "anchors": ["src/contracting/client.py:ContractingClient.lint", "src/contracting/client.py:ContractingClient.compile", "src/contracting/compilation/compiler.py:ContractingCompiler.parse", "src/contracting/compilation/compiler.py:ContractingCompiler.visit_Assign", "src/contracting/compilation/linter.py:Linter.check", "src/contracting/compilation/linter.py:Linter.visit_Assign"]}
{"id": "C118", "title": "What a client call answers", "statement": "Calling a function of a contract object returns what the function returned; if the transaction fails the call raises exactly the exception it failed with, and no stored value has changed but, if it was metered, the signer's balance. With return_full_output=True the call returns the report of the transaction, whether it succeeded or failed.", "quantifier": "all contracts, functions, arguments, environments and states", "why_tests_cant": "All behaviours of the called code.", "anchors": ["src/contracting/client.py:AbstractContract._abstract_function_call", "src/contracting/execution/executor.py:Executor.execute"]}
{"id": "C119", "title": "The owner of a contract", "statement": "importlib.owner_of(m) tells who may call the contract m: anyone if it is None or empty, otherwise only that account or contract; asking changes nothing, and the answer stays what was given at the submission, whatever is executed and committed later.", "quantifier": "all states, contracts and callers, and all later transactions", "why_tests_cant": "All histories of transactions of all contracts.", "anchors": ["src/contracting/stdlib/bridge/imports.py:owner_of", "src/contracting/storage/driver.py:Driver.get_owner", "src/contracting/stdlib/bridge/access.py:__export.__enter__", "src/contracting/storage/contract.py:Contract.submit"]}
{"id": "C120", "title": "What a transaction is charged for", "statement": "The stamps a metered run uses, and whether and where it is stopped, depend only on the lines of contract code it executes and on what it writes: not on the lines of library code in between, nor on the memory of the process, nor on earlier transactions. Within the limit all of it is charged; beyond it the first charge that passes the limit stops the run.", "quantifier": "all sequences of executed lines and writes, and all limits", "why_tests_cant": "All sequences, of any length, on all machines.", "anchors": ["src/contracting/execution/tracer.py:Tracer.trace_func", "src/contracting/execution/tracer.py:Tracer.add_cost", "src/contracting/execution/tracer.py:Tracer.start", "src/contracting/execution/runtime.py:Runtime.deduct_write", "src/contracting/execution/runtime.py:Runtime.clean_up"]}
{"id": "C121", "title": "A contract's functions are what its code says", "statement": "What runs when a contract (or the executor) calls a function of another contract is the function its stored code defines, whatever third contracts did before in the transaction or in earlier ones; and what the standard library offers is the same for every contract and transaction.", "quantifier": "all histories of transactions, all sequences of imports and attribute assignments in them, all contracts and attributes", "why_tests_cant": "All histories; the effect of one contract on another.", "anchors": ["src/contracting/compilation/linter.py:Linter.visit_Attribute", "src/contracting/compilation/linter.py:Linter.visit_Assign", "src/contracting/execution/module.py:DatabaseLoader.exec_module", "src/contracting/execution/runtime.py:Runtime.clean_up", "src/contracting/stdlib/env.py:gather"]}
{"id": "C122", "title": "What a name means in contract code", "statement": "A name in the code of a loaded contract is what the contract's own code bound it to, else a value of the environment of this transaction, else what the standard library provides. The names the runtime itself relies on (the mark that this is a contract, by which imports are restricted and lines charged; the module's name, by which it is unloaded after the transaction) are out of reach of contract code and of the environment.", "quantifier": "all contracts, environments, names and histories of transactions", "why_tests_cant": "All programs the linter accepts; all histories.", "anchors": ["src/contracting/execution/module.py:DatabaseLoader.exec_module", "src/contracting/execution/module.py:restricted_import", "src/contracting/stdlib/env.py:gather", "src/contracting/execution/runtime.py:Runtime.clean_up", "src/contracting/compilation/linter.py:Linter.visit_FunctionDef", "src/contracting/compilation/linter.py:Linter.visit_Import"]}
{"id": "C123", "title": "A date is one value", "statement": "A date of the time module is one value: what it is compared by, subtracted by and printed as is what is stored of it, so that a date written to a Variable or Hash is read back as an equal date, whatever contract code did with it.", "quantifier": "all dates and all sequences of assignments to their attributes", "why_tests_cant": "All dates and all sequences of assignments; all programs the linter accepts.", "anchors": ["src/contracting/stdlib/bridge/time.py:Datetime", "src/contracting/storage/encoder.py:Encoder.default", "src/contracting/storage/encoder.py:as_object", "src/contracting/compilation/linter.py:Linter.visit_Attribute"]}
{"id": "C124", "title": "A contract given as a Python function", "statement": "submit(f), lint(f) and compile(f) of a Python function treat it exactly as the text of the statements of its body; submit without a name takes the function's name. Nothing else of the function (parameters, defaults, decorators, annotations) matters; anything but one plain function definition is refused and changes nothing.", "quantifier": "all functions, linter settings, environments and states", "why_tests_cant": "All functions and all states of the client.", "anchors": ["src/contracting/client.py:ContractingClient.closure_to_code_string", "src/contracting/client.py:ContractingClient.submit", "src/contracting/client.py:ContractingClient.lint", "src/contracting/client.py:ContractingClient.compile"]}
{"id": "C125", "title": "An event keeps its declaration", "statement": "What LogEvent(event, params) checks once holds for every event it logs: the arguments are those declared, of declared types among str, int, float, bool and decimal, at most three of them indexed, whatever the contract does in between.", "quantifier": "all declarations and all sequences of statements between a declaration and an event", "why_tests_cant": "All sequences of statements; aliasing of a dict.", "anchors": ["src/contracting/storage/orm.py:LogEvent.__init__", "src/contracting/storage/orm.py:LogEvent.write_event"]}
{"id": "C126", "title": "Equal numbers are one entry", "statement": "Numbers, dates and durations can be indices of a hash; h[a] and h[b] are one entry exactly if a and b are equal.", "quantifier": "all numbers, dates and durations, all hashes and states", "why_tests_cant": "All pairs of numbers, all histories that compute them.", "anchors": ["src/contracting/storage/orm.py:Hash._validate_key", "src/contracting/stdlib/bridge/decimal.py:ContractingDecimal.__str__", "src/contracting/stdlib/bridge/time.py:Datetime.__str__", "src/contracting/stdlib/bridge/time.py:Timedelta.__str__"]}
{"id": "C127", "title": "A client reads and writes the contract's own entries", "statement": "client.get_var(contract, name, parts) answers what the contract's hash (or, without parts, its variable) of that name holds, None where the contract sees its default; client.set_var makes both read the value, and changes nothing else and no stored file; different arguments are different entries.", "quantifier": "all contracts, names, parts, values and states", "why_tests_cant": "Two code paths build the keys; all keys and states.", "anchors": ["src/contracting/client.py:ContractingClient.get_var", "src/contracting/client.py:ContractingClient.set_var", "src/contracting/storage/driver.py:Driver.get_var", "src/contracting/storage/orm.py:Hash.__getitem__"]}
