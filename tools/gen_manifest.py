#!/usr/bin/env python3
"""Writes MANIFEST.json. One call of c() per property."""
import json, os
claims = []
def c(pid, status, theorems, note=""):
    claims.append({"property": pid, "status": status, "theorems": theorems.split(), "note": note})

# --- decimals (Properties/DecProps.v)
c("C18", "proved", "C18_on_grid_and_in_range C18_pow C18_pow_exact C18_round_refuted", "all constructors and operators; the power itself is libmpdec's (any result). round(x, n) returns a plain Decimal, which is no contract decimal and has no limits (C18_round_refuted)")
c("C19", "proved", "C19_arithmetic_exact_rounded_down C19_int_operand")
c("C20", "proved", "C20_transfer_conserves C20_add_then_subtract C20_clamped_transfer_refuted",
  "the clamped case is outside the claim and is shown to lose money")
c("C21", "proved", "C21_text_round_trip")
c("C22", "partial", "C22_ints C22_floats C22_small_negative_floats_refuted C22_text_misread_refuted",
  "REFUTED for negative floats whose repr has a negative exponent (-1.5e-07 raises); true for all other floats and for ints below 10^4300")
c("C23", "partial", "C23_order C23_order_int C23_large_int_refuted C23_negative_is_falsy_refuted",
  "REFUTED for ints outside (-10^30, 10^29]: they are clamped before comparing; proved between decimals and for ints in range")
c("C24", "proved", "C24_floordiv_mod C24_by_zero")

# --- time (Properties/TimeProps.v)
c("C25", "proved", "C25_order C25_instant_unique C25_add_then_difference", "instants are defined by counting calendar days from 1 January 1")
c("C26", "proved", "C26_construct C26_arithmetic C26_inverse C26_units C26_order C26_product_refuted",
  "scaling is by an int; Timedelta * Timedelta is not a product (C26_product_refuted)")
c("C27", "partial", "C27_difference_floor C27_round_trip_partial C27_microseconds_lost_refuted",
  "REFUTED: the difference drops microseconds; b + (a - b) = a exactly when both have the same microsecond field")

c("C13","proved","C13_round_trip","Every storable value (Spec/EncSpec.v: floats by their repr text, ints up to CPython's 4300-digit limit) round-trips; decimals compare by numeric value. Dates whose attributes contract code assigned to are not values of this model: C123.")
c("C14","proved","C14_exactly C14_tuple_becomes_list C14_int_key_becomes_text C14_constant_keys_become_text C14_other_keys_refused C14_keys_merge_refuted C14_reserved_key C14_reserved_time C14_reserved_examples","The round trip holds exactly on values of JSON shape (iff, for all values); what happens to tuples, int keys and reserved keys is proved.")
c("C15","partial","C15_no_raw_big_int_partial C15_refuted","REFUTED for top-level lists and lists in lists (C15_refuted); proved for all other storable values.")
c("C16","partial","C16_text C16_equal_decimals C16_equal_decimals_refuted","Text facts for every encodable value. REFUTED for 0 and -0, which are equal with different texts; all other equal decimals have equal text.")
c("C17","partial","C17_convert_dict_partial C17_refuted","REFUTED for lists in lists (C17_refuted); proved for all other storable values.")
c("C01","partial","C01_read_your_writes C01_lookup_order C01_bypass_refuted","Proved for drivers with the cache on, over all histories of gets, sets and deletes of other keys, listings and cache expiries; REFUTED for bypass_cache=True (C01_bypass_refuted).")
c("C02","partial","C02_pending_only_partial C02_delete_invisible_refuted C02_refuted","REFUTED: for every key a delete is invisible while a cached or durable value exists.")
c("C03","proved","C03_commit_durable C03_separate_keys C03_commit_succeeds","For keys whose part after the dot is not empty; two pending keys at the same place: the later one wins.")
c("C04","proved","C04_rollback","")
c("C05","partial","C05_rollback_to_time_refuted C05_refuted","REFUTED: in every history rollback(nanos) changes nothing.")
c("C06","proved","C06_hard_apply C06_hard_apply_succeeds","For every history in which earlier hard_applies succeeded.")
c("C07","proved","C07_crash","Granularity: one HDF5 attribute update per key, as in the statement.")
c("C08","partial","C08_single_key_partial C08_refuted C08_raises_halfway_refuted","REFUTED for two or more keys.")
c("C12","partial","C12_cache_independent_partial C12_refuted","Proved for storable values at separate places over all histories; REFUTED for tuples.")

c("C09","partial","C09_different_places_partial C09_commit_partial C09_slash_refuted C09_empty_refuted C09_slash_general_refuted","REFUTED as stated: '/' and the empty string are legal in hash keys and ':' becomes '/' on disk, so different keys share a group. Proved for names and parts that are non-empty and free of ':' '.' '/'.")
c("C10","partial","C10_hash_listing_partial C10_committed_invisible_refuted C10_refuted C10_stale_refuted C10_invented_refuted C10_reachable","REFUTED: after a commit no hash entry is listed (for all states); cached values override newer pending ones; entries can be invented. Proved: exactly the live pending and cached entries of a hash are listed.")
c("C11","partial","C11_only_own_entries C11_cleared_partial C11_durable_survives_refuted C11_refuted","REFUTED: entries that are only durable survive clear(). Proved: clear only touches the hash's own entries; pending and cached entries are gone after clear and commit.")
c("C28","proved","C28_hash_keys C28_accepted","")
c("C29","proved","C29_tuples_distinct C29_no_interference C29_aliases_refuted","Proved for non-empty tuples of strings, as stated; C29_aliases_refuted records that other keys collide (h[1] and h['1'], h['a'] and h[('a',)], h[()] and h['']).")
c("C30","proved","C30_read_back C30_default C30_reads_are_pure","Before a commit; after a commit the durable value is given by C03 and C09.")
c("C31","proved","C31_declarations_separate C31_dot_refuted","C31_dot_refuted: with a dot in a contract name the keys can coincide.")
c("C33","partial","C33_read_only C33_reads_partial C33_default_refuted","Writes: proved. Reads: equal to those of an object declared without default_value; REFUTED with a default value.")
c("C34","partial","C34_typed_partial C34_float_refuted C34_tuple_refuted","Proved for every type but float. REFUTED: a variable of type float holds a decimal; after a commit a tuple is a list.")
c("C35","partial","C35_events C35_bad_declarations C35_declared_signer C35_signer_refuted","REFUTED for the signer: a LogEvent keeps the signer of the transaction that loaded its module (C35_declared_signer), and after a transaction out of which execute raises the module stays loaded, so the events of the next transaction name the old signer (C35_signer_refuted). Proved: everything else, and the signer of the context when the event was declared. isinstance in Python's sense: a bool is an int. Assumes the contract does not change the params dict after the declaration (it is not copied).")

# --- metering (Properties/MeterProps.v)
c("C40","proved","C40_line_raises C40_line_charged C40_write_raises C40_completed_within C40_transaction","The limits raise in every state; the bound on completed executions is for code without crypto.verify/key_is_valid, whose bare except is C42. The RSS limit is a further way to raise.")
c("C41","proved","C41_write C41_bytes_counted","Per write in every state; the total over a whole execution for code that writes by ORM assignments and events (Hash.clear and __Contract go around the count per item only in their keys) and without crypto.verify/key_is_valid (C42).")
c("C42","partial","C42_signal_ends_execution_partial C42_metering_switched_off_refuted","REFUTED: crypto.verify and crypto.key_is_valid swallow the tracer's assertion, after which the rest of the transaction is free. Proved for code that does not call them.")
# --- transactions (Properties/TxProps.v)
c("C43","proved","C43_fee C48_reported C45_failed_transaction","Metered transactions that are not auto-committed, from a state left by a normally ended transaction; the fee is the float stamps_used/rate rounded down to 30 places. C48_reported and C45_failed_transaction: no other entry is touched by the fee.")
c("C44","partial","C44_paid_in_full_partial C44_refuted C44_not_admitted_charged_refuted","REFUTED: a contract that spends the balance first pays less (the balance is clamped at 0), and a sender who was not admitted is charged. Proved when the balance left by the contract covers the fee.")
c("C45","partial","C45_failed_transaction C45_when_it_raises C45_base_exception_refuted C45_fee_error_refuted","Proved for every execution that returns status 1 (without auto-commit). REFUTED for executions out of which execute itself raises: a BaseException raised by contract code, and an error while the fee is computed.")
c("C46","partial","C46_failed_transaction_partial C46_other_driver_writes_refuted C46_refuted","REFUTED: the executor's own pending writes are put into the given driver. Proved when both drivers have the same pending writes.")
c("C47","partial","C47_committed_survives_partial C47_pending_lost_refuted C47_refuted","REFUTED: after a failed auto-commit every earlier uncommitted write is gone. Proved: committed state survives.")
c("C48","partial","C48_reported C48_exactly_partial C48_clear_refuted","Assignments are reported exactly; REFUTED for Hash.clear, whose deletions are not reported.")
c("C49","proved","C49_events","")
c("C51","proved","C51_refused C51_compiled","Functions with a name starting with '__' are refused in every state; every function of compiled code that is not exported has such a name. (Other public names, such as `f = helper` at top level, are not functions of the source: see C36_C38_undecorated_refuted.)")
# --- context (Properties/CtxProps.v)
c("C36","partial","C36_context_partial submission_decorated C36_C38_undecorated_refuted C36_entry_alias_refuted","Proved for all call trees (re-entrancy included) of contracts whose public functions all carry the decorator and whose top-level code calls no contract. REFUTED for undecorated public functions (an alias 'f = helper' passes the linter): their callees see the wrong caller. REFUTED too for a transaction that names the contract 'con_a:z' (the store drops what follows the colon): con_a's function runs and sees 'con_a:z' as its caller (C36_entry_alias_refuted).")
c("C37","partial","C37_call_restores C37_transaction_partial C37_refuted C37_top_level_refuted C37_refused_owner_leaks_refuted C37_stuck_forever","Every call, of any code, that returns or raises anything but an owner check's Exception restores the context exactly. REFUTED: a refused owner check leaves its frame; when the entry function is undecorated or the entry contract's top-level code makes the call it survives the transaction, and then every later transaction fails. The stack is empty after every transaction otherwise.")
c("C38","partial","C38_owner_partial C38_let_in C38_sender_let_in C36_C38_undecorated_refuted","Proved under the same conditions as C36; who is let in exactly (anyone if no owner or an empty one is stored): C38_let_in, C38_sender_let_in, Example C38_let_in_example; REFUTED for undecorated public functions, which act as their caller.")
c("C39","partial","C36_context_partial C37_call_restores C39_refuted","REFUTED: an undecorated public function runs under its caller's context and its events are reported as the caller's. Proved for decorated functions (C36: at the start of every body; C37: after every call it makes).")
# --- randomness (Properties/RandProps.v)
c("C68","partial","C68_seed_first C68_unseeded_raises C68_history_partial C68_refuted","Proved for every transaction that starts unseeded and for every history of executions that return. REFUTED: after an execution out of which a BaseException escapes the seed survives into the next transaction.")
c("C69","proved","C69_seed C69_stream","The generator itself (Mersenne twister) is an arbitrary function of the seed text and the draws.")
c("C70","partial","C70_fixed_lengths_partial C70_refuted","REFUTED: the parts are concatenated without separators, so different blocks can collide. Proved when the hashes have fixed lengths and there is no salt.")
# --- which code runs (Properties/ExecProps.v)
c("C52","partial","C52_not_stored_partial C52_entry_partial C52_refuted","REFUTED: execute('os','system') calls Python's own module. Proved when the contract name is not the name of a Python module.")
c("C66","partial","C66_statement C66_import_module C66_loaded C66_run C66_transaction_partial C66_top_level_refuted C66_shadow_refuted","Proved for every import in code that runs under restricted imports (all contract functions). REFUTED: the top-level code of the called contract runs with Python's own import; importlib.import_module of a stored contract whose name is that of a loaded Python module outside the standard library gives the Python module. Dotted names: C102. All of it for contracts that do not bind __contract__ (C122_refuted: others import what they like).")
# --- linter and compiler (Properties/LintProps.v, Properties/CompProps.v): about syntax trees; ast.parse and astor are not modelled
c("C32","partial","C32_declared_partial C32_refuted","REFUTED: Hash(contract='currency', name='balances')['me'] = 1 inside a function is accepted and compiled unchanged. Proved: assignments that declare an ORM object carry no contract or name keyword (and get the contract's own, C58_orm).")
c("C53","partial","C53_clean_partial C53_rejected C53_except_star_refuted C53_submodule_refuted","Proved for every listed construct (any depth, any history of the linter). REFUTED beyond the list: try/except* is accepted, and so is an import of a submodule of a built-in module (import os.path).")
c("C54","partial","C54_deny_list_partial C54_refuted","REFUTED: only the deny list is used; node kinds in neither list are accepted.")
c("C55","proved","C55","verdict and findings are a function of the tree; sorted by line, and a permutation of what was found")
c("C56","partial","C56_direct_partial C56_refuted","REFUTED: an import or function inside an if, for or while of a function is accepted. Proved for direct children of the function.")
c("C57","partial","C57_args_partial C57_refuted C57_no_args_refuted","REFUTED for keyword-only, position-only and starred arguments and for return annotations. Proved for all other arguments of exported functions.")
c("C58","partial","C58_partial C58_exports C58_no_floats C58_orm C58_refuted","Proved clause by clause (Spec/CompSpec.v) for every accepted tree. REFUTED in one case: a contract with an undecorated function called __export, which then decorates its exports (C58_refuted).")
c("C59","partial","C59_not_orm_partial C59_refuted","REFUTED: an argument called like an undecorated function means that function in the compiled code. Proved for arguments called like no undecorated function.")
c("C73","partial","C73_fresh_partial C73_refuted","REFUTED: after a failed compilation its private and ORM names leak into the next one, and a parse without lint raises. Proved from a fresh compiler or after a success.")
c("C60","partial","C60_partial C60_refuted","Proved: exactly the exported functions whose name does not start with '__', in the order of ast.walk, with their (not keyword-only, position-only or starred) arguments and, unless a private function is called like a type, their types. REFUTED for exported functions called __x, and keyword-only arguments are missing.")
c("C74","partial","C74_before_functions_partial C74_refuted","REFUTED: declarations after the first function are missed, and code that assigns the result of a method call makes it raise AttributeError. Proved for the declarations before the first function.")
# --- submission (Properties/SubmitProps.v)
c("C61","partial","C61_transaction_partial C61_history_partial C61_alias_refuted C61_foreign_write_refuted C61_bypass_refuted","REFUTED: a contract accepted under the name 'con_a:x' is stored over con_a when committed; Variable(contract='con_a', name='__code__') writes con_a's code; a driver that bypasses the cache accepts a second submission before the commit. Proved for all histories of transactions and commits in which no other code writes the entries and nothing is aliased.")
c("C62","partial","C62_submit_partial C62_contracts_cannot C62_nested_refuted C62_replaced_refuted","Proved for every call of submit_contract; REFUTED for 'called directly': a constructor submits further contracts as the signer, even other code under the very name being submitted.")
c("C63","partial","C63_names_partial C63_transaction_partial C63_refuted","REFUTED: 'con_a/b' is accepted and then commit raises, also for everything written after it. Proved for names without '/'.")
c("C64","proved","C64_change_developer","for every call in every state; a constructor runs as the sender of the submission (C62_nested_refuted)")
# --- determinism (Properties/DetProps.v)
c("C50","partial","C50_deterministic_partial C50_same_storage C50_committing_partial C50_history_partial C50_refuted C50_pending_refuted C50_language_refuted","Proved: for code that lists no hashes (all/items/clear), two machines whose entries read the same and whose pending writes are the same report the same, also for histories; for all code if disk and cache are the same. REFUTED in general: Hash.all depends on what is cached, and deleting an entry reads differently if it was pending than if it was cached. All of it for behaviours that are functions of the answers they get; the linter accepts and the compiler keeps code that is not: list({'a', 'b'}), str(f) (C50_language_refuted; that Python's answers differ between processes is not in the model).")
# --- threads (Properties/LockProps.v)
c("C71","proved","C71_exclusive C71_serial C71_answers C71_told C71_last_write C71_final","any number of threads, any schedule, cut at every call of h5py and of the lock; assumed: each h5py call is atomic, one path per file, one process")
c("C72","partial","C72_partial C72_no_invention C72_refuted","REFUTED: a reader that looks between the deletion of the attribute and its new value sees the key missing. Proved: otherwise it sees the value in the order of the lock or the new one, never an invented one.")
c("C75","proved","C75_no_deadlock C75_terminates C75_completes","")
# --- client (Properties/ClientProps.v)
c("C65","partial","C65_uncommitted_partial C65_not_listed_refuted C65_refuted","REFUTED: delete_contract lists only pending and cached keys, so committed submission code is never replaced. Proved as long as no submission code is on disk.")
c("C76","partial","C76_returned_partial C76_raised_refuted C76_refuted","REFUTED: after an exception bypass_privates stays on (no try/finally) and private functions can be called. Proved when it returns.")
c("C77","partial","C77_first_call_partial C77_environment C77_frozen_refuted C77_refuted","REFUTED: the first call stores its time in the client's environment; from then on the clock has no influence. Proved for the first call.")
c("C78","partial","C78_quick_write_partial C78_commits_others_refuted","Proved: read back and durable. REFUTED for 'nothing else': every pending write is committed with it.")
c("C79","partial","C79_listing C79_pending_partial C79_committed_refuted C79_refuted","REFUTED: committed contracts are not listed, and a hash entry whose key ends in .__code__ is. Proved: the exact listing, and that contracts with pending or cached code are in it.")
c("C80","proved","C80_flush","for every successful flush; keys without a variable part raise instead of giving None")
# --- interfaces (Properties/InterfaceProps.v)
c("C67","partial","C67_enforce C67_raises C67_contract_func C67_contract_private C67_contract_var C67_refuted","Proved: the exact condition, and when it raises. Read as 'the contract has such a function' it is REFUTED: standard library and environment names and imported modules count as functions with any arguments, and a function requirement that names a variable raises AttributeError.")
# --- hashing and cryptography (Properties/HashProps.v)
c("C81","partial","C81_hash C81_raises C81_rehash C81_texts_partial C81_refuted C81_case_refuted","Proved: what is hashed, when it raises, and that two texts that are not hexadecimal collide only if the hash function does. REFUTED for all texts: a text and the hexadecimal form of its bytes have the same hash, and so have upper and lower case digits.")
c("C82","partial","C82_exactly C82_keys_partial C82_refuted","Proved: exactly what is accepted. REFUTED: 0x prefixes, signs, underscores and blanks are accepted too, for which verify raises.")
c("C83","partial","C83_verify_partial C83_raises C83_refuted","Proved if nacl.signing is loaded. REFUTED: crypto.py imports only nacl, so unless other code of the process has imported nacl.signing every call raises AttributeError.")
# --- decimals and random bits, further (Properties/DecMoreProps.v); contract objects (Properties/ClientCallProps.v)
c("C84","partial","C84_value C84_not_seeded C84_refuted","Proved for every k > 0: the answer is the number whose binary digits are the draws. REFUTED for k = 0: raises ValueError.")
c("C85","partial","C85_int C85_whole C85_digits_partial C85_raises C85_refuted","Proved: int(x) is the whole part of every x; round(x) is nearest, half to even; round(x, n) rounds down for every n from -100 to 30. REFUTED: round(0.9, 0) is 0; and the result is a plain Decimal without the limits of contract decimals (C18_round_refuted).")
c("C86","partial","C86_small_partial C86_refuted","REFUTED: decimal.setcontext acts on the importing thread only, so in any other thread every decimal from 0.01 on raises InvalidOperation when it is read or converted, until execute has set the context (which a metered execute does only after it has read the balance). Proved for values below 0.01.")
c("C87","partial","C87_passed C87_exact_partial C87_default_refuted C87_clash_refuted","Proved: exactly what is passed. REFUTED: arguments not given are passed as None instead of their declared defaults; arguments called now, environment or metering are never passed; get_contract raises TypeError for contracts with an argument called signer, func, executor, contract_name or return_full_output.")
# --- declarations (Properties/CompProps.v), dumps (Properties/DumpProps.v), deletion (Properties/DeleteProps.v)
c("C88","partial","C88_declared_partial C88_no_alias_partial C88_refuted C88_alias_refuted C88_chain_refuted","Proved for plain assignments: no tuple targets, no aliases of Hash, Variable and LogEvent; with C58_orm the storage name is the first target. REFUTED: x: Any = Hash() is accepted and compiled without contract and name; h = ForeignHash is accepted; a = b = Variable() gives one object two names.")
c("C89","partial","C89_dump_partial C89_current_partial C89_refuted C89_pending_refuted","Proved for a new driver: every committed entry below the root group is listed with its value, under its own key if the key is regular. REFUTED: deleted entries and hashes themselves are listed with None; entries in the root group of a file are missing; with pending writes the dump mixes committed keys with pending values.")
c("C90","partial","C90_dump_partial C90_refuted C90_relative_refuted","Proved for variables. REFUTED: entries of hashes are missing; with a relative storage_home the dump is always empty.")
c("C91","partial","C91_names_partial C91_refuted","Proved: sorted, without duplicates, at most length, each with the prefix, and every variable of any contract. REFUTED: the names are those of variables, without the contract, so no stored key is ever listed.")
c("C92","partial","C92_delete_partial C92_pending_partial C92_refuted C92_committed_refuted C92_prefix_refuted C92_new_file_refuted","Proved: pending and cached entries whose keys start with the name are gone, everything else that is stored elsewhere is unchanged, nothing appears. REFUTED: what is committed stays; pending and cached entries of contracts whose names start with the name are deleted too; a variable called like the contract makes a new contract file.")
# --- reported reads (Properties/ReadsProps.v)
c("C93","partial","C93_reads_partial C93_first_partial C93_stale_refuted C93_created_refuted C93_auto_refuted C93_listing_refuted","Proved: every key accessed and the fee account are reported; what is newly reported is the value before the transaction, unless the key did not exist. REFUTED: without a commit in between a transaction reports the keys and old values of the transactions before it; a key that did not exist is reported with the transaction's own value if it is read after the write; with auto_commit nothing is reported; keys listed by Hash.all are not reported.")
# --- admission and termination (Properties/AdmitProps.v, Properties/EndsProps.v)
c("C94","partial","C94_check_partial C94_refused_partial C94_who_is_metered C94_range_refuted","Proved for rates and stamps up to 10^29; who is metered at all: C94_who_is_metered. REFUTED without that bound (C94_range_refuted): beyond 10^29 the comparison is with the clamped number and too many stamps are admitted.")
c("C95","partial","C95_bounded_partial C95_loading_refuted C42_metering_switched_off_refuted","Proved for the call of the function, if no library function swallows the signal. REFUTED: the top level of the called contract runs when execute imports it, before the tracer is started: any number of lines (an endless loop, if it depends on the state or the time) runs at no cost; and code that calls crypto.verify can switch the tracer off (C42).")
# --- operators and random choices (Properties/TimeOpsProps.v, Properties/RandomProps.v)
c("C96","partial","C96_arithmetic_partial C96_comparison_partial C96_rejected C96_in_list C96_minus_duration_refuted C96_duration_minus_date_refuted C96_number_times_duration_refuted C96_equality_refuted","The exact table of +, -, * and the comparisons is proved for every pair with a date or a duration. REFUTED: date - duration is always a TypeError while duration - date is the earlier date; number * duration is a TypeError; == and != with another type raise instead of being False, so that `date in list` raises when another type comes first.")
c("C97","proved","C97_randrange C97_randint C97_choice C97_choices C97_shuffle C97_not_seeded C97_number_uniform C97_choice_uniform C97_shuffle_uniform C97_choices_every","Over CPython's algorithms with an arbitrary source of numbers; arguments are ints and lists. Equally likely is proved as: one draw for each answer (choices: only that every answer is possible, as the float product is not exactly uniform).")
c("C98","proved","C98_sound C98_errors C98_full_width C98_round_trip C98_two_formats_needed","Over a model of Lib/_strptime.py: the patterns with their order of alternatives, backtracking, prefix match and unconverted rest; compared with CPython on 3000 random cases. Other directives are not modelled. str(date) needs a format with or without .%f depending on the date.")
c("C99","partial","C99_careful_code_partial C99_values_are_shared_refuted C99_failed_transaction_leaves_no_trace_refuted C99_cache_loss_is_invisible_refuted C99_stored_size_is_charged_refuted","REFUTED: the driver stores and hands out references. A list changed in place after it was stored or read changes what the key reads as, survives a failed transaction if it came from the cache, differs between nodes whose caches differ, and reaches the disk without being charged or counted against the 128 KB limit. Proved for code that changes no object in place once storage holds it (any object graph): its answers and the directory are those of the driver over values of Model/Driver.v.")
c("C100","proved","C100_failed_transaction_restores_pending C100_pending_keys_read_as_before","Over the driver with references (Model/Heap.v); a pending value that contains itself (which cannot be written to disk) is outside the statement.")
c("C101","partial","C101_arithmetic_partial C101_comparison_partial C101_other_types C101_odd_numbers_refuted","REFUTED: a bool (str is 'True') and a negative float whose text has a negative exponent raise InvalidOperation in every operator, == included, and == with a date or duration raises TypeError. Proved for all other numbers in range (beyond it see C23) and all other values. Not modelled: text % decimal (formatting), infinite plain Decimals, ** with operands of other types.")
c("C102","partial","C102_plain_imports_partial C102_binds_contracts C102_runs_python_refuted C102_top_level_refuted","REFUTED: the linter accepts 'import a.x' for every Python module a, and restricted_import imports a, running its body, before refusing; a body that raises SystemExit (lib2to3.__main__ does) ends the process. Where imports are not restricted, 'import os.path' gives the contract os. Proved: what an import statement binds under restricted imports is always a contract; plain names run no Python module.")
c("C103","partial","C103_attrs_partial C103_committed_refuted C103_refuted C103_own_first_refuted","REFUTED: after a commit (quick_write commits) every such attribute raises AttributeError, because listings look for 'contract.x' among the group names of the contract's file, which have no prefix; and a function or attribute of the object hides the variable. Proved: exactly the claim about what is pending or cached.")
c("C104","proved","C104_transaction C104_fee_elsewhere C104_history C104_foreign_code_cannot_write C104_linted_code_refuted","Own is the set of behaviours of the contract's functions, R any transitive relation that looks only at its keys (contract.x without a dot in x, except the developer). keeps_storage may assume that the code called preserves R. Without auto_commit; hypotheses: names without ':', the language compiles other names to foreign code (C104_linted_code_refuted: an inline Hash(contract=...), which the linter accepts, C32_refuted, breaks it). Example C104_example, C106_example.")
c("C105","partial","C105_no_module_outlives_partial C105_fresh_stays_fresh_partial C105_raised_refuted C122_refuted","Transactions that return. REFUTED in general: C105_raised_refuted: if execute itself raises (a balance that is a str when the fee is taken), the modules stay. Example C105_example. For contracts that do not bind __name__; others stay loaded (C122_refuted).")
c("C106","proved","C106_supply_conserved C106_fee_destroyed C106_supply_never_grows","Supply at most 99999999999999999999999999999 (beyond, balances are clamped); the token's code as in Spec/TokenSpec.v, under the hypotheses of C104. Example C106_example: two transactions, one through another contract.")
c("C107","partial","C107_calls_partial C107_own_attributes_partial C107_now_refuted C107_environment_refuted C107_name_refuted C107_executor_refuted C107_signer_refuted","REFUTED: a function called now, environment, name, executor or signer (all accepted by the linter, C107_accepted) overwrites the object's own attribute: with now every call of every function is an endless recursion, with environment an AttributeError; after one called name or executor, later functions cannot be called; after one called signer, later functions are signed by a functools.partial. Proved when no function has such a name. Examples C107_accepted, C107_hypotheses, C107_example.")
c("C108","partial","C108_independent_partial C108_at_rest C108_shared_time_refuted C108_refuted","REFUTED: the default argument environment={} is one dict for all clients, and the first call stores its time in it: from then on every call through any such client runs at that time. Proved for clients with environments of their own (or calls that give one), if the calls leave the runtime at rest, which C108_at_rest derives from C37's conditions. Examples C108_example, C108_used.")
c("C109","partial","C109_at_first C109_hard_apply_keeps_partial C109_calm_partial C109_commit_refuted C109_rollback_refuted C109_later_refuted","REFUTED for the reads: report['reads'] is the driver's own dict, which a commit, rollback() or flush_cache empties and the next transaction adds to. Proved: hard_apply freezes it; transactions that return without committing, gets, sets and rollback(nanos) keep all values reported. writes and events are copies. Examples C109_example, C109_commit_example, C109_calm_example.")
c("C110","partial","C110_no_floats_partial C110_only_floats_partial C110_float_refuted","REFUTED: floats in the caller's dict are replaced by decimals. Proved: nothing else changes. Changes contract code makes inside a mutable argument are not part of this model. Example C110_example.")
c("C111","partial","C111_defaults_partial C111_in_place_refuted C111_refuted","REFUTED: the default object itself is handed out. With Hash(default_value=[]), x = h['a']; x.append(1); h['a'] = x makes h['b'] read as [1], and doing the same for 'b' changes what is stored under 'a' (C111_appends_trace). Proved for code that changes neither stored nor default objects in place. Examples C111_careful_example, C111_appends_trace.")
c("C112","partial","C112_transaction_partial C112_client_partial C112_client_arguments C112_time_refuted C112_import_time_refuted","REFUTED: code whose top level assigns the global 'now' chooses its submission time (C112_time_refuted); without 'now' in the environment the time stored is the one when the process was started, so two nodes store different times (C112_import_time_refuted); a constructor that submits under the same name is what stays (C62_replaced_refuted). Proved for whole transactions without auto-commit, whatever the code and its constructor do, if nothing else in the transaction may have written that code entry and the code leaves 'now' alone. Examples C112_example, C112_client_example.")
c("C113","partial","C113_no_trace_partial C113_stuck_refuted C113_raised_refuted C113_pending_refuted","REFUTED: a dry run that leaves a context frame behind (C37) makes every later transaction fail, rollback or not; one that raises out of execute leaves its environment (and loaded modules) for the next one; rollback also takes back what was pending before. Proved for any number of dry runs that return (whatever their status), of decorated entry points, when everything was committed before: the whole report and the storage afterwards are equal. Example C113_example.")
c("C114","proved","C114_limit_unobservable C114_lower_limit C114_higher_limit C114_cut_off_differs C114_not_let_in_differs","For all contract behaviours and limits; the whole output and the whole machine afterwards are equal. C114_lower_limit: in terms of balances and rates in the range of C94. C114_higher_limit: also when the report was cut off at the limit, for code whose crypto.verify / key_is_valid run library lines only. The conditions are needed: a limit below cost + 5 stamps lowers the report and the fee of the same work (C114_cut_off_differs); a limit the balance does not cover makes it fail (C114_not_let_in_differs). Example C114_example.")
c("C115","partial","C115_commit_points_partial C115_saving_succeeds_partial C115_delete_refuted C115_tuple_refuted C115_shared_place_refuted","REFUTED for deletes (a pending delete of a stored key is not visible until it is committed), for values that the encoding changes (tuples), and for keys that share a place in the file. Proved for every sequence of gets and sets of storable values other than None under keys with different places (C29 / C09), and any commits, hard_applies and cache expiries between the steps; there saving always succeeds if the files can be created. Missing: listings of a prefix (C10). Example C115_example.")
c("C116","partial","C116_flush_file C116_flushed_reads_none_partial C116_flush_file_cached_refuted C116_flush_file_pending_refuted C116_flush_cache C116_flush_full","REFUTED for flush_file: it unlinks the file only, so a key of that file whose value is pending, or cached by an earlier hard_apply, still reads that value through the same Driver (C116_flush_file_cached_refuted), and a pending one is stored again by the next commit (C116_flush_file_pending_refuted). What holds: nothing stored under the name is left, other names are untouched, for all Driver states (C116_flush_file); keys with nothing pending or cached read None (C116_flushed_reads_none_partial). flush_cache and flush_full hold in full. File names are plain names (no slash).")
c("C117","partial","C117_compiles_partial C117_client_partial C117_refuted C117_lint_answers","REFUTED: for x['a'] = Variable() lint answers None (the linter ignores a target without a name) and every compilation raises AttributeError (C117_refuted). Proved for all sources in which every Variable, Hash, ... is assigned to a name, for every module name and every state of the compiler: lint answers None if and only if it compiles. Of trees: the parser and the code generator are not modelled. Example C117_example.")
c("C118","partial","C118_returns C118_fails C118_raises_partial C118_plain_calls C118_full_output_refuted C118_production_refuted C118_base_exception_refuted","Proved: when a call returns and what; which exception a failed transaction raises, and that nothing but the fee has changed. REFUTED: with return_full_output=True every failed transaction raises TypeError (the report, a dict, is raised), so its report is never seen (C118_full_output_refuted); with an executor in production every call raises AttributeError after the transaction was executed (C118_production_refuted); a BaseException leaves the writes behind (C118_base_exception_refuted). Example C118_example.")
c("C119","partial","C119_who_is_let_in C119_owner_stays_partial C119_seized_refuted","Proved: who is let in after owner_of answered, for all states, callers and contracts; the owner stays, for every history of transactions and commits in which contract code writes the contract's own entries only by submissions. REFUTED: a contract with Variable(contract='con_a', name='__owner__') makes anyone the owner of con_a, locking the owner out (C119_seized_refuted). Examples C119_example, C119_who_example, C61_example.")
c("C120","partial","C120_charged_partial C120_library_partial C120_spend C120_library_refuted C120_memory_refuted C120_leftover_refuted","Proved for all runs within the machine's limits (800000 lines, library lines among them, and 500 MiB of growth): exactly the contract's lines and writes are charged. REFUTED beyond: every run can be stopped on a machine that takes more library lines (reads from the disk instead of the cache) or whose process grows for other reasons; after a transaction out of which a BaseException escapes the next one inherits its memory use. Example C120_example.")
c("C121","partial","C121_own_calls_partial C121_unassigned_partial C121_others_call_the_last_assigned C121_library_keeps_it C121_refuted","REFUTED: the linter accepts m.f = v and hashlib.sha3 = v (a concrete contract, accepted and compiled unchanged). In every history the last assignment is what all other contracts call for the rest of the transaction, and what is assigned to the standard library stays for the life of the process. Proved: a contract's own functions still find each other as its code says, and what others call is right in every transaction in which nobody assigns to it. Example C121_next.")
c("C122","partial","C122_meaning C122_charged C122_restricted_partial C122_forgotten_partial C122_environment_refuted C122_stays C122_refuted","Proved: what every name means, for all codes and environments; lines are charged always; the environment cannot lift the restriction of imports; if nobody binds __name__, nothing stays loaded. REFUTED: 'import con_y as __contract__' and '@export def __name__()' are accepted and compiled as they are; the first lifts the restriction of imports for the contract, the second leaves its module loaded for all later transactions, with the environment (now, block number) of the first; an environment with a text under __name__ leaves every imported contract but that one loaded (C122_environment_refuted). Example C122_example.")
c("C123","partial","C123_untouched_partial C123_sums C123_compared_as_before C123_by_the_instant C123_stored_as_assigned C123_shared_refuted C123_unreadable_refuted C123_refuted","Proved: dates nobody assigned to, and sums of dates and durations, are stored as they are; assignments to year ... microsecond never change comparisons, differences and the text; what is stored and read back after any sequence of assignments of whole numbers. REFUTED: 'now.year = 1970' and 'now.month = 13' are accepted and compiled as they are; the date then equals the old one and is stored as another, or as a text that raises at every read. All contracts of a transaction, and the later transactions of a client, share the date called now, so one contract's assignment decides what every other contract stores as now (C123_shared_refuted, C123_unreadable_refuted). Assignments of values other than whole numbers are modelled and not characterised. Example C123_example.")
c("C124","proved","C124_the_body C124_nothing_else C124_refused C124_no_source C124_linted","For all trees of functions; inspect, autopep8, ast.parse and astor are parameters (arbitrary functions). C124_linted under the hypothesis that parsing gives back the body that was printed. So parameters, defaults and the variables a function closes over are lost without a warning (Example C124_example: accepted as a function although the linter refuses its definition).")
c("C125","partial","C125_unchanged_partial C125_changed_refuted C125_refuted","Proved: as long as the dict given as params is not changed, every later event of the LogEvent is as declared, through all other declarations, events and changes of other dicts. REFUTED: LogEvent keeps the caller's dict; after any change of it events are logged as the changed dict says, unchecked (four indexed arguments, lists: C125_refuted; the linter and the compiler accept schema['b'] = ...). Arguments without a 'type' entry after a change (KeyError) are not modelled. Example C125_example.")
c("C126","partial","C126_different_numbers C126_equal_decimals_partial C126_whole_partial C126_dates_refuted C126_date_raises C126_refuted C126_zero_refuted","Proved: whole numbers and decimals of different values never are one entry; two decimals of one value, not zero and not the largest, are one entry; a whole decimal that does not end in 0 is the entry of the whole number. REFUTED: every access with a date or a duration as an index or a part of it raises, as their texts contain ':'; decimal 1000 and 1000 are equal and different entries while decimal 100 and 100 are one; x - x is '-0' for every decimal x, so h[x - x] is not h[decimal 0]; the largest decimal has two texts; 0.5 and decimal 1500 are refused and 10^-30 and decimal 1000 are not; True and 1 are different entries. Examples C126_example, C126_whole_example.")
c("C127","partial","C127_reads C127_reads_variable C127_writes C127_get_is_quiet C127_alias_refuted","Proved for all states: the client reads what the contract reads (decimals have the same value), sets what both read then, and touches no other entry, journal or file; not for set_var of None, which does not hide a stored value (C02). REFUTED: the client's parts are not checked, so set_var(c, 'h', ['a:b'], v) writes what the contract calls h['a', 'b'], and set_var(c, 'h:a', [], v) what it calls h['a']. Parts are given as texts (make_key applies str). Examples C127_example, C127_valid_example.")
out = os.path.join(os.path.dirname(__file__), "..", "MANIFEST.json")
json.dump({"claims": claims}, open(out, "w"), indent=1)
open(out, "a").write("\n")
