{"id": "C01", "title": "dig_for_items/values/keys find everything and nothing else", "statement": "For any nested mapping and any predicate that does not raise, dig_for_items returns exactly the (key, value) pairs, at every depth reachable through values of the accepted mapping types, for which the predicate is truthy: each occurrence once, a level's own matches before those of its nested mappings, nested mappings in insertion order. dig_for_values / dig_for_keys are its projections. When there is no match all three return None, never an empty list.", "quantifier": "every nested mapping (any depth, width, class mix), every predicate, every accepted-type set", "why_tests_cant": "the set of trees and predicates is infinite; a test checks a few fixed JSON files", "anchors": ["dustgoggles/structures.py:dig_for_all", "dustgoggles/structures.py:dig_all_wrapper", "dustgoggles/structures.py:dig_for_items", "dustgoggles/structures.py:dig_for_values", "dustgoggles/structures.py:dig_for_keys", "dustgoggles/structures.py:_evaluate_diglevel"]}
{"id": "C02", "title": "dig_for_item/value/key return the first match of the exhaustive search", "statement": "dig_for_item returns None iff nothing in the nested mapping matches, and otherwise the first element of the list dig_for_items would return; dig_for_value / dig_for_key are its projections. A match at the top level is preferred to any deeper one. The docstring's promise of a breadth-first search is false: a deeper match in an earlier branch can be returned instead of a shallower one. If the predicate raises, the search ends with that exception or with a match found earlier, except that a StopIteration raised below the top level is swallowed and hides the matches after it.", "quantifier": "every nested mapping, predicate, accepted-type set", "why_tests_cant": "agreement of two traversals must hold on every tree; breadth-first order is only wrong on particular shapes", "anchors": ["dustgoggles/structures.py:dig_for", "dustgoggles/structures.py:dig_wrapper", "dustgoggles/structures.py:dig_for_item", "dustgoggles/structures.py:dig_for_value", "dustgoggles/structures.py:dig_for_key"], "originally": "dig_for_item returns None iff nothing in the nested mapping matches, and otherwise the first element of the list dig_for_items would return (dig_for_value / dig_for_key are its projections). The docstring's stronger promise, that the search is breadth-first (a shallowest match is returned), is also checked."}
{"id": "C03", "title": "constant references in the dig functions", "statement": "A non-callable reference searches for keys (match='key') or values (match='value') equal to it, exactly as the corresponding predicate does. With match='item' a non-callable reference does not search at all: it raises TypeError on every mapping with at least one entry and returns None on an empty one.", "quantifier": "every nested mapping, constant, match mode", "why_tests_cant": "the item mode only fails for non-empty mappings and constant references", "anchors": ["dustgoggles/structures.py:constant_to_dig_predicate", "dustgoggles/structures.py:keyonly", "dustgoggles/structures.py:valonly"], "originally": "A non-callable reference searches for keys (match='key'), values (match='value') or items (match='item') equal to it, i.e. behaves as the corresponding callable predicate; the search never fails because of the reference."}
{"id": "C04", "title": "dig_and_edit edits exactly the matching entries", "statement": "dig_and_edit replaces the value of every entry that satisfies the filter by the setter's result, at every depth (descending into the values as they are after editing), leaves every other leaf, every key and the key order of every level unchanged, and terminates whenever the setter does not deepen the nesting. If the setter can produce a nesting that matches again, it may fail to terminate.", "quantifier": "every nested mapping, filter and setter (including setters returning mappings)", "why_tests_cant": "unbounded trees and arbitrary functions; non-termination cannot be observed by a finite test", "anchors": ["dustgoggles/structures.py:dig_and_edit"]}
{"id": "C05", "title": "unnest flattens without losing or inventing leaves", "statement": "unnest returns a flat mapping: no value is of an accepted mapping type; the entry for a flat key is the last leaf (in traversal order) whose escaped path formats to that key; there are no other entries; and unnest is idempotent on its own output. When all leaf paths format differently, the result has exactly one entry per leaf.", "quantifier": "every nested mapping, escape string, accepted-type set", "why_tests_cant": "all trees", "anchors": ["dustgoggles/structures.py:unnest", "dustgoggles/structures.py:_unnest"]}
{"id": "C06", "title": "unnest never merges distinct leaves", "statement": "Two leaves at different paths of one nested mapping never share a flat key, and the flat form determines every leaf and its path, whenever the escape contains a character that occurs in no key, all keys are strings and no mapping sits under an empty key at the top level. Each condition is needed: flat keys collide with the default escape, with an escape that merely does not occur as a whole in any key (such as '__'), with an empty key at the top level, and with keys of mixed types.", "quantifier": "every nested mapping with string keys and every escape character", "why_tests_cant": "collisions depend on a relation between pairs of paths; sampled trees rarely collide", "anchors": ["dustgoggles/structures.py:_unnest"], "originally": "Two leaves at different paths of one nested mapping never share a flat key. True when a one-character escape that occurs in no key is used and all keys are non-empty strings; false for the default escape and false for empty or mixed-type keys even with an escape."}
{"id": "C07", "title": "to_records emits one complete record per leaf mapping", "statement": "to_records returns, in depth-first order, one record for each mapping that contains a non-mapping value, reached through mappings of mappings; each record holds all the leaf mapping's own fields not shadowed by a level name and, for every level name, the category on the path (the deepest wins for a repeated name); category values win over equal-named fields. Default level names are 1, 2, 3, ... If the nesting is deeper than the level names supplied, StopIteration is raised. Arguments are not modified.", "quantifier": "every nested mapping, every level-name sequence", "why_tests_cant": "all trees and depths", "anchors": ["dustgoggles/structures.py:to_records", "dustgoggles/func.py:naturals"]}
{"id": "C08", "title": "rmerge is the recursive right-biased union", "statement": "rmerge(m1, m2) has exactly the keys of both (m1's in order, then m2's new ones); a key in only one keeps its value; a key holding accepted mappings in both holds their recursive merge; any other shared key holds m2's value. Hence every non-mapping leaf path of m2 survives, and every leaf of m1 not overridden along its path survives.", "quantifier": "every pair of nested mappings", "why_tests_cant": "all pairs of trees", "anchors": ["dustgoggles/structures.py:rmerge"]}
{"id": "C09", "title": "algebra of rmerge", "statement": "rmerge has the empty mapping as left and right identity and is idempotent (rmerge(m, m) == m). It is not associative in general; it is associative when no key holds a mapping in one operand and a non-mapping in another. The mtypes argument decides only at the first level: nested merges always use the default types.", "quantifier": "all nested mappings", "why_tests_cant": "laws over all triples of trees", "anchors": ["dustgoggles/structures.py:rmerge"], "originally": "rmerge has the empty mapping as left and right identity and is idempotent (rmerge(m, m) == m). It is not associative in general; it is associative when no key holds a mapping in one operand and a non-mapping in another. The mtypes argument applies at all depths."}
{"id": "C10", "title": "insert_after inserts the new entry right after the prior key", "statement": "If prior_key is present and new_key is not, the result is the mapping with the new entry directly after prior_key and everything else in place. If prior_key is absent the result equals the mapping. If new_key is already present before prior_key it keeps its place and takes the new value; if it is already present after prior_key it moves to directly after prior_key but keeps its old value, so the new value is lost.", "quantifier": "every mapping, every pair of keys, every value", "why_tests_cant": "depends on the relative position of two keys in arbitrary mappings", "anchors": ["dustgoggles/structures.py:insert_after"], "originally": "If prior_key is present and new_key is not, the result is the mapping with the new entry directly after prior_key and everything else in place; if prior_key is absent the result equals the mapping. In every case where prior_key is present the result maps new_key to new_value."}
{"id": "C11", "title": "NestingDict creates levels on demand and converts losslessly", "statement": "After setting a value at any key path (whose proper prefixes hold no plain values), reading that path returns the value and every other existing path is unchanged; reading a missing path creates empty levels only. todict returns a plain-dict tree with the same content and no NestingDict anywhere inside nested dicts.", "quantifier": "every key path, every history of path assignments, every NestingDict tree", "why_tests_cant": "unbounded depth and histories", "anchors": ["dustgoggles/structures.py:NestingDict", "dustgoggles/structures.py:dig_and_edit"]}
{"id": "C12", "title": "get_from walks items then attributes, or returns the default", "statement": "get_from follows the keys by item lookup, falling back to attribute lookup, and returns the default when some step finds neither. This never raises when all keys are strings; in general the result is exact: at the first step whose item is missing, a key that is not a string raises TypeError instead of giving the default.", "quantifier": "every object graph, key sequence, default", "why_tests_cant": "all object shapes and paths", "anchors": ["dustgoggles/structures.py:get_from", "dustgoggles/structures.py:getitemattr"], "originally": "get_from follows the keys by item lookup, falling back to attribute lookup, and returns the default (never raises) when some step finds neither. True for string keys; for non-string keys a missing item raises TypeError."}
{"id": "C13", "title": "separate_by partitions stably", "statement": "separate_by returns (hits, misses): each input item occurs in exactly one of them, relative order is preserved, hits are exactly the items on which the predicate returns the object True (truthy results that are not True count as misses).", "quantifier": "every collection and predicate", "why_tests_cant": "all inputs", "anchors": ["dustgoggles/structures.py:separate_by"]}
{"id": "C14", "title": "HashDict returns what was stored", "statement": "For an equivalence function that is injective on the stored items, HashDict behaves as a dict for every history of assignments; in general a read returns the first item ever stored whose hash equals that of the last item assigned to the key, and the number of stored values is the number of distinct hashes ever assigned, which is also what str() reports, next to the number of distinct keys; so it may report more values than can be read. With the default equivalence (hash) reading back an int can return a different int.", "quantifier": "every history of assignments and reads, every equivalence function", "why_tests_cant": "hash collisions need specific histories", "anchors": ["dustgoggles/structures.py:HashDict"], "originally": "For an equivalence function that is injective on the stored items, HashDict behaves as a dict for every history of assignments; in general a read returns the first item ever stored whose hash equals that of the last item assigned to the key, and the number of stored values is the number of distinct hashes ever assigned. With the default equivalence (hash) reading back an int can return a different int."}
{"id": "C15", "title": "pooled map returns every call's result under its key", "statement": "map_into_pool over a re-iterable collection of records returns, for every record, key -> func(*args, **kwargs) (default key: the record's position; for repeated keys the last record), with the keys in order of first appearance, identically for no pool, a pool, and a chunked pool with any number of workers, whatever order the workers finish in, when no call raises. Records passed as an iterator are used up while being completed and give an empty result; a pool of 0 workers raises ValueError.", "quantifier": "every list of records, worker count >= 1, completion schedule", "why_tests_cant": "schedules and chunk boundaries are unbounded", "anchors": ["dustgoggles/structures.py:MaybePool", "dustgoggles/structures.py:map_into_pool", "dustgoggles/structures.py:_chunkwrap", "dustgoggles/structures.py:MaybeResult"]}
{"id": "C16", "title": "one failing call does not lose other calls' results", "statement": "Without chunking, if some calls raise Exceptions, the result maps those keys to their exceptions and all others to their values; with filter_exc only the failing keys are dropped. In chunked mode a call's result is kept iff no call of its chunk failed; a failing chunk leaves only its first exception under the key 'chunk_<i>', so other results are lost. An exception that is not an Exception is raised without a pool and makes a pooled map never return.", "quantifier": "every list of records, failure pattern, worker count", "why_tests_cant": "depends on failure positions relative to chunk boundaries", "anchors": ["dustgoggles/structures.py:MaybePool.get", "dustgoggles/structures.py:_chunkwrap", "dustgoggles/structures.py:map_into_pool"]}
{"id": "C17", "title": "pool progress counters are consistent", "statement": "At every moment of every schedule n_ready + n_running == n_results, ready() is True iff n_running == 0 iff results_ready() is all True; n_ready never decreases and n_results stays as calls finish; ready() read one result at a time while calls end is never True before all are ready; after terminate there are no results.", "quantifier": "every schedule of completions", "why_tests_cant": "all intermediate states", "anchors": ["dustgoggles/structures.py:MaybePool"]}
{"id": "C18", "title": "small mapping helpers", "statement": "reindex_mapping and enumerate_as_mapping number values 0..n-1 in order (enumerate_as_mapping returns {} for None and mappings unchanged); listify always returns a list, is idempotent, and wraps strings and scalars; get_from_all returns one value per mapping, in order, using the default where the key is missing.", "quantifier": "every mapping / sequence / object", "why_tests_cant": "all inputs", "anchors": ["dustgoggles/structures.py:reindex_mapping", "dustgoggles/structures.py:enumerate_as_mapping", "dustgoggles/structures.py:listify", "dustgoggles/structures.py:get_from_all"]}
{"id": "C19", "title": "are_in decides containment", "statement": "are_in(items)(container) is True iff every item is in the container; with or_ iff some item is; every item is tested whatever the earlier outcomes. For an empty collection of items it raises TypeError.", "quantifier": "every collection of items and container", "why_tests_cant": "all inputs", "anchors": ["dustgoggles/func.py:are_in"]}
{"id": "C20", "title": "intersection and disjoint", "statement": "intersection(*xs) is the set of elements common to all arguments; disjoint(*xs) returns for each re-iterable argument, in order and with multiplicity, the elements not common to all. For two arguments the outputs share no element; for three or more they can. Arguments that are iterators come out empty.", "quantifier": "every non-empty family of finite iterables", "why_tests_cant": "all families", "anchors": ["dustgoggles/func.py:intersection", "dustgoggles/func.py:disjoint"]}
{"id": "C21", "title": "optionalize never lets an ordinary exception escape", "statement": "The optional version returns the function's value when it succeeds, without calling the callback; when the function raises an Exception it returns None and calls the callback exactly once with that exception; KeyboardInterrupt and other non-Exception exceptions propagate and the callback is not called.", "quantifier": "every function, argument tuple, exception", "why_tests_cant": "all behaviours of the wrapped function", "anchors": ["dustgoggles/func.py:optionalize", "dustgoggles/dynamic.py:dontcare"]}
{"id": "C22", "title": "argument adapters", "statement": "splat(f)(seq) == f(*seq); argstop(f, n) passes exactly the first min(n, available) positional arguments (of the single sequence argument when unpacking); gmap with several iterables stops at the shortest; filtern returns the first match or raises StopIteration; triggerize returns its argument after exactly one call; naturals yields 1, 2, 3, ...; catch_interaction calls the function iff noninteractive is falsy.", "quantifier": "all functions and arguments", "why_tests_cant": "all inputs", "anchors": ["dustgoggles/func.py:splat", "dustgoggles/func.py:argstop", "dustgoggles/func.py:gmap", "dustgoggles/func.py:filtern", "dustgoggles/func.py:triggerize", "dustgoggles/func.py:naturals", "dustgoggles/func.py:catch_interaction"]}
{"id": "C23", "title": "execute runs the steps as a left-to-right pipeline", "statement": "Without inserts and sends, execute(signal) applies the steps in index order, each to the previous output, and returns the last output; itercall yields exactly the successive outputs. The first step that raises stops the pipeline: later steps are not called, and the exception propagates (or None is returned if optional); a StopIteration raised by a step or a send leaves as a RuntimeError, because the steps run inside a generator. A Composition with no steps returns None.", "quantifier": "every list of steps, signal, failure point", "why_tests_cant": "all pipelines", "anchors": ["dustgoggles/composition.py:Composition.execute", "dustgoggles/composition.py:Composition.itercall", "dustgoggles/composition.py:Composition._do_step", "dustgoggles/composition.py:Composition.call_step"], "originally": "Without inserts and sends, execute(signal) applies the steps in index order, each to the previous output, and returns the last output; itercall yields exactly the successive outputs. The first step that raises stops the pipeline: later steps are not called, and the exception propagates (or None is returned if optional). A Composition with no steps returns None."}
{"id": "C24", "title": "signal placement among positional inserts", "statement": "A step with positional inserts is called with the inserted values in increasing position order and the signal at the smallest non-negative position not taken by an insert; keyword inserts are passed by name; nothing else is passed; inserts themselves are unchanged by calls.", "quantifier": "every set of insert positions (any integers, any gaps), every signal", "why_tests_cant": "all position sets", "anchors": ["dustgoggles/composition.py:Composition._flow_signal", "dustgoggles/composition.py:Composition.call_step"]}
{"id": "C25", "title": "partial steps", "statement": "A functools.partial step without inserts is called exactly as partial(f, *a, **k)(signal) would call f; inserts override positional and keyword arguments baked into the partial.", "quantifier": "every partial, insert set, signal", "why_tests_cant": "all argument combinations", "anchors": ["dustgoggles/composition.py:Composition._call_partial_step"]}
{"id": "C26", "title": "sends deliver the step's output before the next step runs", "statement": "After a step, each of its sends delivers the (optionally piped) output to its target in order: an insert of a named step, a list append or item assignment, a dict item, or a writer. A send into a later step is used by that step in the same execution.", "quantifier": "every composition, send list, signal", "why_tests_cant": "all graphs", "anchors": ["dustgoggles/composition.py:Composition._perform_sends", "dustgoggles/composition.py:Composition.place_into", "dustgoggles/composition.py:Composition.add_send", "dustgoggles/composition.py:Composition.add_insert"]}
{"id": "C27", "title": "executions do not influence each other, unless there is feedback", "statement": "If steps, pipes and writers are pure, every send into a step goes to a strictly later one, and sends to list items are to items the lists have, then execute(x) returns the same value whatever executions (successful or failing) came before. With a send into the same or an earlier step this is false.", "quantifier": "every composition of pure steps, every history of executions", "why_tests_cant": "histories are unbounded; leaks of state show only on particular graphs", "anchors": ["dustgoggles/composition.py:Composition._perform_sends", "dustgoggles/composition.py:Composition.add_insert", "dustgoggles/composition.py:Composition.execute"]}
{"id": "C28", "title": "captures hold each step's last output", "statement": "After add_captures and any history of executions, an execution leaves in the capture of each step that it completed that step's output, and does not change the captures of the other steps; so after a successful one the last capture equals the returned value.", "quantifier": "every pipeline, signal, failure point, history", "why_tests_cant": "all histories", "anchors": ["dustgoggles/composition.py:Composition.add_captures", "dustgoggles/composition.py:Composition.add_capture"]}
{"id": "C29", "title": "tracked executions record every step and the failing step", "statement": "With a tracker, a successful execute appends one record per step, in order, naming the step; an execution failing at a step appends records for the steps before it and one error record targeting the failing step. This holds from construction on and while sends and steps with new names are added (a step whose later sends fail may be recorded as well); a step replaced with add_step keeps its stale record besides the new one.", "quantifier": "every pipeline, failure point, sequence of add_step calls", "why_tests_cant": "all pipelines and histories", "anchors": ["dustgoggles/composition.py:Composition._add_track_send", "dustgoggles/composition.py:Composition.execute", "dustgoggles/composition.py:_track_factory", "dustgoggles/tracker.py:Tracker.track"]}
{"id": "C30", "title": "add_step appends or replaces, reindex renames", "statement": "add_step with a new name appends the step at the end, with an existing name replaces it in place. Without a name it uses len + 1: it appends if no step has that name, as when all steps came from a sequence or were added without names, and replaces otherwise. reindex renames the steps to 0..n-1 in order; inserts and sends are not renamed, so execute does the same if inserts and sends agree under old and new names and there are no sends into steps, and otherwise need not. function_names lists the names of the steps in order and raises AttributeError iff a step has none.", "quantifier": "every composition and sequence of operations", "why_tests_cant": "all histories and name sets", "anchors": ["dustgoggles/composition.py:Composition.add_step", "dustgoggles/composition.py:Composition.reindex"]}
{"id": "C31", "title": "the tracker log file is always a JSON array of all dumps", "statement": "After any sequence of track / set_metadata / pause / rename / dump / clear operations on any number of trackers (sharing log files or not) in which no dump raised, each log file is absent if nothing was dumped to it since it was last cleared, and otherwise is '[' + the dumped documents joined by ',\\n' + ']', in order; read as JSON it gives back the documents; paused dumps write nothing; a document holds the name and time of construction, the time of the dump and, last, the history. Trackers whose identifiers are not empty and have no underscore write to the same file of a directory only if identifiers and names agree; otherwise different identifiers and names may share one.", "quantifier": "every history of operations", "why_tests_cant": "histories are unbounded", "anchors": ["dustgoggles/tracker.py:Tracker.dump", "dustgoggles/tracker.py:Tracker.clear"]}
{"id": "C32", "title": "what a failed or interrupted dump leaves behind", "statement": "A dump during which json.dumps raises leaves the log without its closing bracket, and no later dump makes it readable JSON again until it is cleared. A dump cut short by a crash leaves the earlier array intact only if nothing was written, the complete array only if everything was, and otherwise an unreadable file; if no file existed and nothing was written, an empty file on which every later dump raises OSError.", "quantifier": "every history and crash point", "why_tests_cant": "crash points", "anchors": ["dustgoggles/tracker.py:Tracker.dump"]}
{"id": "C33", "title": "history numbering and metadata precedence", "statement": "Since construction or the last clear, the i-th history record has trackcount i (1-based) unless overridden by metadata; call metadata overrides tracker metadata overrides the built-in fields; clear empties the history seen through both tracker.history and the log.", "quantifier": "every history of operations", "why_tests_cant": "histories", "anchors": ["dustgoggles/tracker.py:Tracker.track", "dustgoggles/tracker.py:Tracker.set_metadata", "dustgoggles/tracker.py:Tracker.clear"]}
{"id": "C34", "title": "shared memory block helpers", "statement": "open_block with overwrite leaves a fresh zero-filled block of the requested size at the address; without overwrite it returns the existing block untouched; exists_block is True iff a block is present and changes nothing; delete_block removes exactly that address; fetch_block_bytes returns exactly the bytes written; no other address is affected. missing_ok has no effect: deleting an absent block raises FileNotFoundError either way. A block whose creator died before sizing it can be neither opened, overwritten, read nor deleted (ValueError).", "quantifier": "every shared memory state, address, size", "why_tests_cant": "all states", "anchors": ["dustgoggles/codex/memutilz.py:open_block", "dustgoggles/codex/memutilz.py:exists_block", "dustgoggles/codex/memutilz.py:delete_block", "dustgoggles/codex/memutilz.py:fetch_block_bytes"], "originally": "open_block with overwrite leaves a fresh zero-filled block of the requested size at the address; without overwrite it returns the existing block untouched; exists_block is True iff a block is present and changes nothing; delete_block removes exactly that address and, with missing_ok, succeeds when it is absent; fetch_block_bytes returns exactly the bytes written. No other address is affected."}
{"id": "C35", "title": "memorize / remember round-trip", "statement": "For any codec with decode(encode(v)) == v and non-empty encodings, remember(address) after memorize(v, address) returns v until the address is next written, whatever was there before; with exists_ok=False memorize raises FileExistsError and changes nothing iff the address is occupied.", "quantifier": "every state, value, codec, address, unrelated intervening operations", "why_tests_cant": "all states and codecs", "anchors": ["dustgoggles/codex/codecs.py:generic_mnemonic_factory"]}
{"id": "C36", "title": "little-endian counters", "statement": "The fixed-width counters stored in shared memory decode to the number written for every number in range, and out-of-range numbers are rejected without changing the block.", "quantifier": "all numbers and widths", "why_tests_cant": "2^40 / 2^64 ranges", "anchors": ["dustgoggles/codex/implements.py:TagIndex.update_length", "dustgoggles/codex/implements.py:TagIndex._add", "dustgoggles/codex/implements.py:SlidingLock.release"]}
{"id": "C37", "title": "TagIndex behaves as an insertion-ordered set with swap-removal", "statement": "For every history of add / remove / check / update by any attached handles (non-overlapping, i.e. one operation at a time), update() returns each currently present key exactly once, check(k) is not None iff k is present and then equals its position, add of a present key returns its position (or raises FileExistsError without effect if exists_ok is False), removing an absent key raises KeyError without effect. No blocks outside the index's own names are touched.", "quantifier": "every history, every set of non-empty string keys, any collision-free hash", "why_tests_cant": "unbounded histories", "anchors": ["dustgoggles/codex/implements.py:TagIndex"]}
{"id": "C38", "title": "TagIndex with awkward keys", "statement": "The empty string and bytes keys are not usable in an index. Adding the empty string raises ValueError but leaves the index one longer than its keys, after which no key can be removed any more. Adding a bytes key lists its repr, under which it is then not found, and removing an earlier key raises FileNotFoundError and leaves the repr in that key's place.", "quantifier": "all keys", "why_tests_cant": "specific keys in specific histories", "anchors": ["dustgoggles/codex/implements.py:TagIndex._add", "dustgoggles/codex/implements.py:TagIndex._delitem", "dustgoggles/codex/implements.py:TagIndex.hash_address"], "originally": "add/remove treat the empty string and bytes keys like any other key. (Expected to fail: characterise.)"}
{"id": "C39", "title": "TagIndex add and remove are crash-atomic", "statement": "If a process dies inside add or remove of an index used without its lock, what the survivors see (the list of keys and whether the key is found) is one of an explicit list of states, and every state of that list is reached by some crash point. The operations are not atomic: the list holds states in which a key is listed but not found, or found but not listed.", "quantifier": "every reachable index, key, crash point", "why_tests_cant": "crash points", "anchors": ["dustgoggles/codex/implements.py:TagIndex._add", "dustgoggles/codex/implements.py:TagIndex._delitem"], "originally": "If a process dies at any point inside add or remove, the index seen by the survivors is the index before or after the operation. (Expected to fail: characterise the states left behind at each crash point.)"}
{"id": "C40", "title": "closing an index destroys everything about it", "statement": "After close() of an empty index no block belonging to it exists. Closing any other index leaves every key and name block behind; an index of the same name created afterwards lists nothing, claims to hold each of the old keys, and can never list them again.", "quantifier": "every reachable index", "why_tests_cant": "histories", "anchors": ["dustgoggles/codex/implements.py:TagIndex.close", "dustgoggles/codex/implements.py:ShareableIndex.close"], "originally": "After close() no block belonging to the index exists. True for an empty index; otherwise key and name blocks leak and make a re-created index of the same name lose keys."}
{"id": "C41", "title": "MetaTagIndex maps keys to metadata", "statement": "With no_lockout, for every non-overlapping history of add with a value and remove, items() lists every present key exactly once with the last value added for it, and indexing returns its encoding.", "quantifier": "every history, any JSON-stable values", "why_tests_cant": "histories with swap-removal", "anchors": ["dustgoggles/codex/implements.py:MetaTagIndex"]}
{"id": "C42", "title": "removing from a MetaTagIndex terminates", "statement": "With locking on, deleting any key, present or not, from a MetaTagIndex never returns, however long one waits: its nested lock waits for its own holder. With locking off, deleting moves the last entry into the place of the deleted one and returns its position; it raises KeyError for a missing key, changing nothing, and raises FileNotFoundError, although the key is gone, exactly when neither that key nor the last one has a value.", "quantifier": "every reachable state and any number of spins / any schedule", "why_tests_cant": "non-termination", "anchors": ["dustgoggles/codex/implements.py:MetaTagIndex.__delitem__", "dustgoggles/codex/implements.py:SlidingLock", "dustgoggles/codex/memutilz.py:delete_block"], "originally": "Deleting a present key from a MetaTagIndex (and hence from a GridPaper) returns. False with locking on: the nested lock can never be acquired. Also false for a key added without a value: FileNotFoundError after the key was removed."}
{"id": "C43", "title": "Notepad behaves as a dict", "statement": "For every non-overlapping history of set / get / del / keys / clear by any handles attached to the same prefix, with string keys that are non-empty and do not start with 'index' and non-None values, results equal those of a dict: get returns the last value set and not deleted since, del removes it, keys() lists exactly the present keys once.", "quantifier": "every history, key set, codec with a left inverse, attached handles", "why_tests_cant": "unbounded histories across processes", "anchors": ["dustgoggles/codex/implements.py:Notepad", "dustgoggles/codex/implements.py:AbstractNotepad"]}
{"id": "C44", "title": "Notepad.get returns the default for a missing key", "statement": "get(key) returns the value of a key that has one other than None and None for a key stored with None; for a key that is missing or has no readable value it raises FileNotFoundError, so the default is never returned for a missing key.", "quantifier": "every state and key", "why_tests_cant": "states", "anchors": ["dustgoggles/codex/implements.py:Notepad.get", "dustgoggles/codex/implements.py:Notepad.__getitem__"], "originally": "get(key, default) returns default iff the key is not present. False: a missing key raises FileNotFoundError and a stored None reads as missing."}
{"id": "C45", "title": "Notepad.close leaves nothing behind", "statement": "After any history in which every listed key has a value, close() removes every block the Notepad and its index ever created and nothing else. If some listed key has no value (left by a failed assignment), close() raises KeyError and keys stay listed.", "quantifier": "every history", "why_tests_cant": "histories", "anchors": ["dustgoggles/codex/implements.py:Notepad.close"], "originally": "After any history, close() removes every block the Notepad and its index ever created and nothing else."}
{"id": "C46", "title": "a failed Notepad assignment has no effect", "statement": "If assigning to a key that is present raises (unencodable value, or exists_ok False), nothing changes except possibly the lock's own blocks. If assigning an unencodable value to a new key raises, the key is listed from then on, cannot be read (FileNotFoundError) and cannot be deleted (KeyError).", "quantifier": "every state, key, value", "why_tests_cant": "error paths in arbitrary states", "anchors": ["dustgoggles/codex/implements.py:Notepad.__setitem__", "dustgoggles/codex/implements.py:Notepad.__delitem__"], "originally": "If assigning raises (unencodable value, existing key with exists_ok False), the Notepad is unchanged. False for new keys with unencodable values: the key is listed, cannot be read, cannot be deleted and blocks close."}
{"id": "C47", "title": "Notepads with different prefixes are independent", "statement": "Two Notepads neither of whose prefixes is the other's extended by '_...' are independent: whatever is done with either, in any order, each answers as if it were alone. A Notepad whose prefix is extended by the other's reads every value of the other under the extended key.", "quantifier": "all pairs of prefixes, keys, histories", "why_tests_cant": "name collisions", "anchors": ["dustgoggles/codex/implements.py:AbstractNotepad.address", "dustgoggles/codex/implements.py:TagIndex.key_address", "dustgoggles/codex/implements.py:TagIndex.hash_address"], "originally": "Operations on one Notepad never change what another Notepad with a different prefix returns. True when neither prefix is an extension of the other by '_...'; false in general."}
{"id": "C48", "title": "GridPaper returns the array last stored", "statement": "A GridPaper answers every history of stores, reads, deletions (lock-free) and listings as a list of arrays would: get(key) returns the last array stored that was accepted, an overwrite is accepted iff it fits the bytes of the first store, and a larger one is rejected with nothing changed. exists_ok=False is ignored for existing keys and rejects new ones (FileNotFoundError); clear() always raises AttributeError; a 0-d array is rejected with its block left behind unlisted; deleting with locking on never returns.", "quantifier": "every history of stores, every array", "why_tests_cant": "histories of shapes", "anchors": ["dustgoggles/codex/implements.py:GridPaper", "dustgoggles/codex/codecs.py:numpy_mnemonic_factory"], "originally": "get(key) returns the last array stored under the key. Holds for first stores and for overwrites by arrays that fit the first store's bytes; larger arrays are rejected with the old array intact; exists_ok=False rejects existing keys (false: it rejects new keys and overwrites existing ones); clear() empties it (false: raises AttributeError)."}
{"id": "C49", "title": "Sticky delivers the last value stuck", "statement": "Any history of any number of Stickies at one address gives the outcomes of a simple board. As long as all encodings have one length, sticking succeeds and a reread returns the value last stuck. A value whose encoding has another length is refused with ValueError and the old one stays; without reread an object keeps returning what it first had.", "quantifier": "every history, value, codec", "why_tests_cant": "histories", "anchors": ["dustgoggles/codex/implements.py:Sticky"], "originally": "A Sticky read from any process returns the last value stuck at the address (reads with reread=True, or first reads). Re-sticking succeeds (false when the encoding length changes: ValueError and the old value stays, although the block may already exist); cached reads may be stale."}
{"id": "C50", "title": "SlidingLock mutual exclusion", "statement": "Any number of processes enter and leave the same SlidingLock once each, in any interleaving of shared-memory steps (others doing anything else to shared memory). If, while a process is taking its slot and placing its lock, no other process takes a slot or removes a marker (they may start, wait, come in, work inside, write the counter and remove their locks), no two processes are ever inside the guarded section at once. Both restrictions are needed: two entries at once, or one entry during which a marker is removed, can put two processes inside.", "quantifier": "any number of processes, every interleaving of shared-memory steps", "why_tests_cant": "schedules are unbounded", "anchors": ["dustgoggles/codex/implements.py:SlidingLock"]}
{"id": "C51", "title": "SlidingLock serves in slot order and releases cleanly", "statement": "Under orderly entry (while a process is taking its slot and placing its lock, no other process takes a slot or removes a marker) the slots served are k+1, k+2, ... in order (k the counter at the start), no process ends with an exception, and when nobody is under way no marker or lock block remains and the counter is the last slot served; the next entrant acquires in one check without waiting. On first use (no counter block yet) a process may fail with ValueError.", "quantifier": "any number of processes, all schedules", "why_tests_cant": "schedules", "anchors": ["dustgoggles/codex/implements.py:SlidingLock._renumber", "dustgoggles/codex/implements.py:SlidingLock.acquire", "dustgoggles/codex/implements.py:SlidingLock.release"]}
{"id": "C52", "title": "a dead lock holder blocks everyone", "statement": "If a process dies inside the guarded section (no timeout set) of a lock entered so far without interleaving, no other process is ever inside again, in any interleaving from then on. The same holds if entries were orderly (no second entry and no marker removal during an entry) and nobody was entering at the death; if somebody was, they can get in. If entries were interleaved before the death, a process that had not begun can still get in.", "quantifier": "every schedule after the crash", "why_tests_cant": "unbounded executions", "anchors": ["dustgoggles/codex/implements.py:SlidingLock._check_acquirement", "dustgoggles/codex/implements.py:SlidingLock.wait"]}
{"id": "C53", "title": "concurrent overwrites and fetches of one note", "statement": "Any number of unguarded processes overwriting and fetching one note, in any interleaving: a fetch gives the old value, an offered value, zeros of an offered value's length, FileNotFoundError or ValueError; an overwrite succeeds or raises FileNotFoundError, FileExistsError or ValueError; when all are done the note holds the value of an overwrite that reported success. Each of the failures and the zeros does occur, so access is not atomic.", "quantifier": "any number of writers and readers, every interleaving", "why_tests_cant": "schedules", "anchors": ["dustgoggles/codex/codecs.py:generic_mnemonic_factory", "dustgoggles/codex/memutilz.py:open_block"]}
{"id": "C54", "title": "Dynamic lifecycle", "statement": "For every history of load / compile_source / define / unload / call and changes of settings, func is set iff a definition succeeded since the last unload, and then __name__ and __signature__ are those of func; loading twice without reload raises AlreadyLoadedError and changes nothing; calling an unloaded Dynamic loads it (load_on_call) or raises UnreadyError; a failing load leaves func alone (but may replace code, if reload is true without being True); unload forgets everything but the settings if there ever was a definition, and raises AttributeError otherwise.", "quantifier": "every history and source behaviour", "why_tests_cant": "histories", "anchors": ["dustgoggles/dynamic.py:Dynamic"]}
{"id": "C55", "title": "Dynamic error accounting", "statement": "errors holds exactly one record per failed compilation or failed optional call since the last unload, in order; call_fail (compile_fail) is True iff there is such a record; calls do what the function does, except that optional calls of a loaded Dynamic never raise an Exception but return None.", "quantifier": "every history", "why_tests_cant": "histories", "anchors": ["dustgoggles/dynamic.py:Dynamic.__call__", "dustgoggles/dynamic.py:Dynamic.compile_source", "dustgoggles/dynamic.py:dontcare"]}
{"id": "C56", "title": "Dynamic bad source and from_function", "statement": "With source that does not compile (or defines nothing) the constructor raises TypeError even if optional, unless lazy; then every call records the error and raises TypeError. Reloading with such source succeeds and keeps running the old code. from_function wraps the function, but source and globals_ are the constructor's arguments, so that reloading runs the code with other globals and calls after unload raise TypeError.", "quantifier": "all sources", "why_tests_cant": "error paths", "anchors": ["dustgoggles/dynamic.py:Dynamic.load", "dustgoggles/dynamic.py:Dynamic.from_function"]}
{"id": "C57", "title": "sort_chunked output is the sorted input", "statement": "With correct min/max statistics and at least two chunks, sort_chunked writes every row whose key is not null exactly once, in non-empty sorted tables, and closes the file; in ascending order the concatenation is sorted. This holds for exact numbers, and for doubles (rows with NaN keys being dropped too) whenever the window edges are in order and the last edge plus one exceeds the maximum. Descending output is not sorted across windows, and rows are lost when max + 1 rounds to max or the range overflows. An inline processor is applied table by table until it raises. With fewer than two chunks it raises and leaves the opened file unclosed. With another direction it raises ValueError and writes nothing, unless there is nothing to sort. The last edge is the maximum exactly. If any column of any row group has no statistics it raises TypeError before it opens the output; if a row group has no minimum or maximum for the sorting column it raises TypeError and leaves the opened file empty and unclosed.", "quantifier": "every table, row-group partition, direction, processor, chunk count", "why_tests_cant": "all tables and partitions", "anchors": ["dustgoggles/mosaic.py:sort_chunked", "dustgoggles/mosaic.py:read_between"]}
{"id": "C58", "title": "read_between returns exactly the rows in the half-open interval", "statement": "read_between returns the rows whose field lies in [lo, hi), in file order, or None exactly when no row group's [min, max] meets [lo, hi]; skipping row groups by statistics never loses a row.", "quantifier": "every table, partition, bounds", "why_tests_cant": "all tables", "anchors": ["dustgoggles/mosaic.py:read_between"]}
{"id": "C59", "title": "integer downcast is lossless and minimal", "statement": "Downcasting a non-empty integer array returns the same values in the narrowest unsigned type if none is negative, otherwise the narrowest signed type, that holds them all; the type is never wider than before, and the reported errors are zero. An empty array raises ValueError.", "quantifier": "every integer array", "why_tests_cant": "2^64 value ranges", "anchors": ["dustgoggles/pivot.py:_downcast_int_array", "dustgoggles/pivot.py:check_in_dtype_bounds"]}
{"id": "C60", "title": "float downcast stays within tolerance", "statement": "For a float array with a finite non-zero value, downcast uses the first type in the documented order that is in range and changes no finite non-zero value by more than atol or, relative to itself, rtol, and reports errors that bound those of every value; if there is none the array is unchanged. In exact arithmetic it never raises and zeros are exact. All-zero arrays become uint8, arrays with nothing finite are unchanged. Otherwise: arrays of zeros with non-finite values give a plain array instead of the dictionary, nillable integers never work with non-finite values (AttributeError or TypeError), and a double just beyond the largest 64-bit integer passes the bounds check and raises.", "quantifier": "every float array and tolerance", "why_tests_cant": "all arrays", "anchors": ["dustgoggles/pivot.py:downcast"]}
{"id": "C61", "title": "duplicate columns", "statement": "check_and_drop_duplicate_columns returns the frame with the first column of each name, in order, and the frame itself if no name is repeated. It raises (ValueError) exactly if a column whose name is repeated has a null; columns with equal names and different values are not noticed.", "quantifier": "every dataframe", "why_tests_cant": "all frames", "anchors": ["dustgoggles/pivot.py:check_and_drop_duplicate_columns"]}
{"id": "C62", "title": "extract_constants", "statement": "extract_constants (how='rows') splits the columns in order into those that are constant (all cells that count are equal; nulls count only if dropna is False) and the others; the dict has each constant column's first cell, which, if not null, equals all cells that count. The first cell may be null though the constant is not; a frame without rows is an IndexError. how='columns' splits the rows likewise but its dict is the first constant row by column (IndexError if none), not a dict of indices.", "quantifier": "every dataframe", "why_tests_cant": "all frames", "anchors": ["dustgoggles/pivot.py:extract_constants"]}
{"id": "C63", "title": "row selection helpers", "statement": "split_on deals the rows by the predicate preserving order; dupe_df_block repeats each row n times in place with a new index (negative: ValueError); squeeze keeps the first value per label in order, or aggregates the values of each label (booleans: any) in sorted label order, losing null labels and null results; junction is the set operation on the distinct null-free combinations (missing column: KeyError).", "quantifier": "every frame", "why_tests_cant": "all frames", "anchors": ["dustgoggles/pivot.py:split_on", "dustgoggles/pivot.py:squeeze", "dustgoggles/pivot.py:junction", "dustgoggles/pivot.py:dupe_df_block"]}
{"id": "C64", "title": "trim_label cuts at the first label ending", "statement": "trim_label of a file reads its first max_size bytes and decodes them up to and including the first 'END\\r\\n'; if there is none, the first three NULs; if there are none either, all of them, or raises ValueError if asked to. Bytes are decoded exactly if they are UTF-8. If an ending is found a text file never fails to decode, though without one it may, if the limit falls inside a character. A reader is closed afterwards. 'LEGEND\\r\\n' counts as an ending, and a PVL ending wins over earlier NULs.", "quantifier": "every file content and size limit", "why_tests_cant": "all byte strings", "anchors": ["dustgoggles/scrape.py:trim_label", "dustgoggles/scrape.py:head_file"]}
{"id": "C65", "title": "cached readers", "statement": "A cached reader returns for each argument its first successful result for ever without reading again, and what the reader now gives if there was none: failures are not kept. All results of scrape_from_file for a label come from a single text of it. So answers may be stale, a str and a Path are read separately, and a caller changing a listing changes it for all. By default the label loader reads 35592 bytes and the label trimmer 500 KiB.", "quantifier": "every history of file changes and reads", "why_tests_cant": "histories", "anchors": ["dustgoggles/scrape.py:cached_label_loader", "dustgoggles/scrape.py:scrape_from_file", "dustgoggles/scrape.py:cached_ls", "dustgoggles/scrape.py:cached_exists"]}
{"id": "C66", "title": "scrape_patterns returns one entry per requested field", "statement": "The result of scrape_patterns has every requested field, in order, with the value of the pattern in the one text loaded: None where it is not found, the literal, or the text; supplemental entries override. It raises exactly the first error of the loader, of a pattern (no group: IndexError; literal_eval's other than ValueError and SyntaxError) or of the supplemental function (TypeError if no mapping). bulk_scrape_metadata returns one result per file in order, stopping at the first error.", "quantifier": "every text, pattern set, supplemental function", "why_tests_cant": "all inputs", "anchors": ["dustgoggles/scrape.py:scrape_patterns", "dustgoggles/scrape.py:make_scraper", "dustgoggles/scrape.py:bulk_scrape_metadata"]}
{"id": "C67", "title": "wrap_piped returns the child's result", "statement": "For every schedule, the wrapper returns a copy of the function's result, or of the Exception it raised, iff that can be pickled and its frame (length and pickle) fits in the pipe. If it does not fit, the child waits to send and the parent, joining first, waits for the child: they deadlock. If nothing can be sent (unpicklable, or a BaseException) the parent waits for ever, as it holds the sending end open itself.", "quantifier": "every result size, every schedule", "why_tests_cant": "schedules and sizes", "anchors": ["dustgoggles/test_utils/core.py:wrap_piped", "dustgoggles/test_utils/core.py:piped"]}
{"id": "C68", "title": "downcast_df and the index", "statement": "With a default index, or if all columns are numeric, downcast_df returns a frame with the same columns in order and the same number of rows, each column recast (integers and non-numeric columns with the same values). The original index is replaced by 0..n-1; with another index and mixed columns the rows are joined by label: those of the old labels and of 0..n-1, each column with its values under its own, so they come apart; with a label twice it raises, and without columns too. A float column of zeros with non-finite values makes it raise.", "quantifier": "every frame, index, tolerance", "why_tests_cant": "all frames and indices", "anchors": ["dustgoggles/pivot.py:downcast_df"]}
{"id": "C69", "title": "typed_columns", "statement": "With distinct names typed_columns keeps, in order, exactly the columns whose lower-cased type name starts with one of the given names, or with 'u' and one of them; a Series is kept iff its type starts with one of them ('u' not allowed for). So uint Series are not numeric, intervals are, and repeated names bring along and double other columns.", "quantifier": "every frame, type name and list of plain type names", "why_tests_cant": "all frames", "anchors": ["dustgoggles/pivot.py:typed_columns", "dustgoggles/pivot.py:numeric_columns"]}
{"id": "C70", "title": "smash", "statement": "smash returns, for each column not in by and each row in turn, the cell, labelled with the row's by cells and the column name joined by '_'; with values, for the rows all of whose by cells are among them. A missing column is a KeyError and a column called 'value' a ValueError.", "quantifier": "every frame with distinct names, every by and values", "why_tests_cant": "all frames", "anchors": ["dustgoggles/pivot.py:smash"]}
{"id": "C71", "title": "unpack and unpack_column", "statement": "unpack turns non-null list cells into columns name_0.. up to the longest list, None where a list is shorter. unpack_column writes those columns by label, replacing columns of that name and otherwise appending them, rows with a null keeping their old value or NaN; other columns are unchanged, the packed one is dropped from the result; the argument itself is changed: it gets the same columns.", "quantifier": "every frame with distinct index labels, every lists", "why_tests_cant": "all lists", "anchors": ["dustgoggles/pivot.py:unpack", "dustgoggles/pivot.py:unpack_column"]}
{"id": "C72", "title": "unique_to_records", "statement": "unique_to_records lists each combination of the columns without nulls exactly once, in some order, and no other; combinations with a null are lost.", "quantifier": "every frame with distinct names, every order of value_counts", "why_tests_cant": "all frames", "anchors": ["dustgoggles/pivot.py:unique_to_records"]}
{"id": "C73", "title": "scrape_subframe", "statement": "scrape_subframe raises AttributeError iff the text has no SUBFRAME followed by END. Otherwise it returns the decimal values of the maximal digit runs between the first SUBFRAME and the first END after it: a tuple if there are at least two, a bare int for one, SyntaxError for none or one with a leading zero. Digits in field names count too.", "quantifier": "every text", "why_tests_cant": "all texts", "anchors": ["dustgoggles/scrape.py:scrape_subframe"]}
{"id": "C74", "title": "get_label_text of part of a file", "statement": "get_label_text of a text file returns its first byte_size bytes if they are a whole number of characters, else raises UnicodeDecodeError; so it always succeeds for ASCII files and with a negative size.", "quantifier": "every file content, size", "why_tests_cant": "all contents", "anchors": ["dustgoggles/scrape.py:get_label_text"]}
{"id": "C75", "title": "random_nested_dict", "statement": "Whatever the random numbers, with plain values random_nested_dict returns only plain dictionaries, none inside empty, of depth at most maxdepth with at most quantity leaves: the result of exactly quantity assignments along paths of generated keys; with exactly quantity leaves if no path leads to another. With one level it always returns; with more it may raise (AttributeError, TypeError) when a key is that of a leaf. Unhashable types are not left out of the keys.", "quantifier": "every generator state, quantity, depth, types", "why_tests_cant": "all random sequences", "anchors": ["dustgoggles/test_utils/core.py:random_nested_dict", "dustgoggles/test_utils/core.py:pick_key_at_level"]}
{"id": "C76", "title": "waiting for a SlidingLock with a limit, and closing one", "statement": "Entering a SlidingLock with max_spins while somebody ahead never leaves fails with TimeoutError after exactly the allowed number of looks and leaves shared memory as it was. The spins already spent are never given back: an object that timed out once gives up at its first look the next time. close() deletes the blocks of that object and nothing else; since one of them is the shared counter, closing an idle object (or an index) lets a newcomer enter beside a process that still holds the lock in a later slot.", "quantifier": "every store, lock, spin limit, spins already spent, position in the queue", "why_tests_cant": "the number of looks depends on timing and on the history of the object; the loss of exclusion needs three processes in one order", "anchors": ["dustgoggles/codex/implements.py:200-256 SlidingLock", "dustgoggles/codex/implements.py:486-493 TagIndex.close"]}
{"id": "C77", "title": "the JSON codec", "statement": "The JSON codec turns exactly the values JSON knows (None, booleans, integers, text, lists, tuples, dicts with such keys) into non-empty ASCII bytes and refuses all others with TypeError. Decoding gives the value with tuples as lists and keys as text, the last of the entries whose keys have the same text being kept; so a value comes back unchanged if and only if it has no tuples, only text for keys and no mappings of other classes. The same holds through memorize and remember. The metadata that GridPaper stores for an array always come back unchanged, and so do the values of a MetaTagIndex of that kind. Blanks around the bytes of a value do not matter; anything else after a space is a ValueError, and a byte that cannot begin a character a UnicodeDecodeError.", "quantifier": "every nested value, every address and store; every array name, dtype and shape", "why_tests_cant": "nesting, key types and characters to be escaped combine without bound", "anchors": ["dustgoggles/codex/codecs.py:14-30 json_codec_factory", "dustgoggles/codex/codecs.py:141-161 numpy_mnemonic_factory", "dustgoggles/codex/implements.py:525 MetaTagIndex"]}
{"id": "C78", "title": "the AST codec", "statement": "Every literal (None, booleans, integers, lists, tuples, dicts and text within these) that is not itself text comes back unchanged through the AST codec, tuples and keys included. Text never does, because it is written without quotes: the text of a literal comes back as that literal, and no text as itself. Within other literals text is written in quotes with visible characters only, in the two-character escapes where there are any. A mapping whose repr() is a call of its class is not read back.", "quantifier": "every nested literal, every text", "why_tests_cant": "quoting and escaping combine with nesting without bound; that no text at all survives is a statement about all texts", "anchors": ["dustgoggles/codex/codecs.py:33-47 ast_codec_factory"]}
{"id": "C79", "title": "iterating over and closing a GridPaper", "statement": "iteritems() of a GridPaper gives every key once with its array. close() without locking removes every block the paper and its index ever created and nothing else; with locking it never comes back unless the paper is empty. The block left behind by a refused 0-d array outlives close(). __getitem__ with fetch=False always raises: TypeError if the key is there, else KeyError.", "quantifier": "every store, every history of stores, reads and lock-free deletions through any handles, every fuel", "why_tests_cant": "blocks left behind are visible only from outside, for some address among unboundedly many; never returning is not observable", "anchors": ["dustgoggles/codex/implements.py:694-697 AbstractNotepad.iteritems", "dustgoggles/codex/implements.py:915-921 GridPaper.close"]}
{"id": "C80", "title": "dumping notepads to files", "statement": "close(dump=True) of a Notepad all of whose keys have values writes, for every key in order, exactly the encoding of its value to the file '<prefix>_<key>' with dots replaced by underscores, and then leaves no block behind; a GridPaper (lock-free) writes the bytes of its arrays in the same way. If no key contains a dot, every value is in its file afterwards; keys that differ only in a dot share a file, and one of the values is lost for good. dump() of a key without a value raises FileNotFoundError, having already emptied the file. close(dump=True) stops at the first such key: the values before it are in their files only, those after it in memory only. dump() of a GridPaper without that key raises KeyError and writes no file.", "quantifier": "every history through any handles, every prefix, set of keys and store", "why_tests_cant": "collisions need particular pairs of keys; the removed blocks are visible only from outside", "anchors": ["dustgoggles/codex/implements.py:795-812 Notepad.dump, close", "dustgoggles/codex/implements.py:897-921 GridPaper.dump, close"]}
{"id": "C81", "title": "tables of parquet metadata", "statement": "For every parquet file with at least one row group and statistics for every column, meta_column_df / meta_record_df (not extended) give one entry per column, in order, with nine fields: sizes and num_values are the totals over all row groups (num_values as the statistics count it, which wins over the column's own), and any other field is its value in the first row group if all row groups (where it is not null) agree, and null if they do not. Extended tables have every field for one row group, and for several the sizes and the fields some column agrees on; but they raise ValueError as soon as one column has the same size (or num_values) in all its row groups and another has not. A file without row groups (KeyError) or with a column without statistics (TypeError) has no table.", "quantifier": "all metadata records with any number of columns, row groups and further fields; all files", "why_tests_cant": "the result depends on which of arbitrarily many fields agree across arbitrarily many row groups; the extended table fails only for particular coincidences of sizes", "anchors": ["dustgoggles/mosaic.py:22-32 parquet_metadata_records", "dustgoggles/mosaic.py:35-50 _flatten_meta_df", "dustgoggles/mosaic.py:53-82 meta_record_df", "dustgoggles/mosaic.py:85-91 meta_column_df"]}
{"id": "C82", "title": "deactivating the resource tracker keeps blocks alive", "statement": "If every process calls deactivate_shared_memory_resource_tracker before it creates or attaches shared memory, then in every interleaving of any number of processes that create, attach, unlink and end, every operation comes out as if no process ended, and a block exists exactly if it was created and not unlinked since. A process that never calls it takes with it, when it ends, exactly the blocks it created or attached and did not unlink, in use elsewhere or not. Calling it after the first use is too late: the process may then remove, on ending, a block that another process has created since. After the call any other type of resource makes register and unregister raise NameError. Calling it twice is calling it once; on Windows it does nothing.", "quantifier": "every history of creations, attachments, unlinkings, calls and endings of any number of processes; every name", "why_tests_cant": "losing a block needs the end of one process to fall between particular operations of others; tests run in one process and see no ending", "anchors": ["dustgoggles/codex/memutilz.py:57-98 deactivate_shared_memory_resource_tracker"]}
{"id": "C83", "title": "keys reserved for the index", "statement": "Assigning to a str key that starts with 'index' raises KeyError and changes nothing, in Notepad and GridPaper; so does deleting 'index' or 'index_lock'. Deleting any other str key that starts with 'index' raises KeyError as well and costs no value, but it removes the block at that address: 'index_key_<i>' takes the i-th key out of the listing, and 'index_name_<hash>' makes a key undeletable and lists it twice once it is assigned again. A key that is not a str but whose text is 'index' is accepted, and its encoded value becomes the number of keys listed.", "quantifier": "every notepad reached by any history through any handles, every key and value", "why_tests_cant": "the damage needs keys chosen to collide with internal addresses and shows only in later listings; it is silent because the expected KeyError is raised", "anchors": ["dustgoggles/codex/implements.py:761-774 Notepad.__setitem__", "dustgoggles/codex/implements.py:779-786 Notepad.__delitem__", "dustgoggles/codex/implements.py:865-881 GridPaper.__setitem__", "dustgoggles/codex/implements.py:902-913 GridPaper.__delitem__"]}
{"id": "C84", "title": "reading an index that is being written", "statement": "While one process adds keys to a TagIndex (with or without its lock), any number of other processes that only call update and check, in any interleaving of single shared-memory operations, do not disturb it, and each sees a growing index: listings are the first n keys in order, n never less than before, perhaps followed by one entry of NUL characters as long as the next key; a key that is not added is not found; a key is found at its position, or, until the next key is listed, not at all or at position 0; a key once found stays in the listings; the only exception is ValueError, and only if a key is added. Each of these defects occurs. While a process removes a key under the lock, a listing can omit another key that is present throughout; of two keys added at once without locks, one can be missing from all later listings although check finds it.", "quantifier": "every reached index, every history of additions, every number and history of readers, every schedule", "why_tests_cant": "the defects need a switch between two particular system calls; the guarantee is about all schedules", "anchors": ["dustgoggles/codex/implements.py:383-401 TagIndex.update_length, update, check", "dustgoggles/codex/implements.py:413-443 TagIndex._add, add", "dustgoggles/codex/implements.py:445-484 TagIndex._delitem, __delitem__"]}
{"id": "C85", "title": "guarded operations happen one after another", "statement": "If any number of processes each do one add, __delitem__ or update of the same TagIndex inside its SlidingLock, in any interleaving of single shared-memory operations in which, while one process is taking its slot and placing its lock, no other takes a slot or removes a marker, then the operations take effect one after another: each process gets the result it would get if the operations were done in the order in which the processes came to the guarded section, and whenever no process is inside, the index holds exactly the keys of that history, in order; an operation that is over before another process begins comes first in that order; when all are done the lock is free. If lock entries interleave freely this fails: two processes can both be told that their keys have position 3, and one of the keys is lost.", "quantifier": "every reached index whose lock has been used, every number of processes, every choice of operations, every orderly schedule", "why_tests_cant": "the schedules are unbounded and a lost update needs a switch between two particular system calls", "anchors": ["dustgoggles/codex/implements.py:158-256 SlidingLock", "dustgoggles/codex/implements.py:391-401 TagIndex.update, check", "dustgoggles/codex/implements.py:413-443 TagIndex._add, add", "dustgoggles/codex/implements.py:445-484 TagIndex._delitem, __delitem__"]}
{"id": "C86", "title": "SlidingLock cannot deadlock", "statement": "Whatever has been done so far to a SlidingLock by any number of processes, if while one was taking its slot and placing its lock no other took a slot or removed a marker, then any processes, wherever they have got to (before entering, taking a slot, waiting, inside, releasing), can all still be served: some continuation that keeps to the same rule brings every one of them through the guarded section and out without an exception. In it every other process either does not move at all or finishes too, and if no other process is under way the lock is free at the end.", "quantifier": "every orderly history of every length, every number of processes, every set of processes still to be served", "why_tests_cant": "a deadlock is the absence of any way on, over unboundedly many histories; a test shows one way on from one history", "anchors": ["dustgoggles/codex/implements.py:158-256 SlidingLock"]}
{"id": "C87", "title": "guarded index operations cannot deadlock", "statement": "Wherever any number of processes have got to in doing one operation each on the same TagIndex inside `with SlidingLock(name)` (some possibly in the middle of adding or removing a key, some waiting, one taking its slot), if entries were orderly as in C86, then any set of them can be brought to the end by some orderly continuation: each gets the result its operation has in the one-after-another history given by the order of coming to the guarded section; every other process has not moved or is at the end too; and if no other was under way, the index then holds exactly the keys of that history and the lock is free.", "quantifier": "every orderly history of every length, every number of processes, every choice of operations (add, remove, check, list) on plain keys, every set of processes still to be brought to the end", "why_tests_cant": "it is the existence of a way on from each of unboundedly many half-done states; a test sees one way on from one of them", "anchors": ["dustgoggles/codex/implements.py:158-256 SlidingLock", "dustgoggles/codex/implements.py:391-401 update, check", "dustgoggles/codex/implements.py:403-484 add, remove"]}
{"id": "C88", "title": "compositions of compositions are flat", "statement": "A Composition without sends, inserts and trackers whose steps are Compositions of that kind, to any depth and none of them optional or empty, returns or raises what the Composition of the functions at the bottom, in order, does, with the same effects on the world. An optional one inside sends None on where it fails. Inserts at a position or at 'signal' or 'self' for a step that is a Composition make the call fail with TypeError before anything is done; all other inserts for it are ignored. A Composition without sends into its own steps is unchanged by a call. A Composition made without steps is neutral as a step; one whose steps were taken away is not (it makes None of anything). Called without arguments it is given None, whatever other keywords there are.", "quantifier": "every tree of Compositions of every depth, every signal, state of the world and failure point", "why_tests_cant": "trees of unbounded depth, any steps with any effects", "anchors": ["dustgoggles/composition.py:Composition.__call__", "dustgoggles/composition.py:Composition.execute", "dustgoggles/composition.py:Composition.call_step", "dustgoggles/composition.py:Composition.itercall"]}
{"id": "C89", "title": "trackers only track", "statement": "A Composition with a tracker, whether given on construction or started later by track(), gives the same results in every sequence of executions, has the same inserts after it and leaves the world the same but for trackers, as the Composition without, provided that steps, pipes and writers do not look at trackers. With a TrivialTracker nothing at all differs, whatever the steps do.", "quantifier": "every Composition, every sequence of signals, every tracker", "why_tests_cant": "all compositions, all histories, all failure points", "anchors": ["dustgoggles/composition.py:Composition._bind_tracker", "dustgoggles/composition.py:Composition.start_tracking", "dustgoggles/tracker.py:TrivialTracker", "dustgoggles/tracker.py:Tracker.track"]}
{"id": "C90", "title": "when digsource finds the source of a Dynamic", "statement": "digsource of a Dynamic that has no function raises TypeError. Of one made from a function it gives what inspect.getsource gives for that function until, for the first time, its function is defined anew or it is unloaded, and raises OSError from then on whenever a function is loaded; of one made from source text it never gives any source, whatever is done to it. Functions and methods show their own source, objects with a func attribute that of the func, one level deep; for anything else TypeError is raised.", "quantifier": "every Dynamic, every history of load, compile_source, define, unload, calls; every object", "why_tests_cant": "histories of every length; the docstring promises otherwise", "anchors": ["dustgoggles/dynamic.py:digsource", "dustgoggles/dynamic.py:Dynamic"]}
{"id": "C91", "title": "Nobody starves at a SlidingLock", "statement": "Let any number n of processes use a free SlidingLock once each. If turns are given to them in any order, such that whoever may not move at present (takes a slot or removes a marker while another takes a slot) lets its turn pass, and the schedule goes at least n(2n+23) times through all of them, then every one of them has been in the guarded section and out of it without an exception, the slots have been served in their order, one each, and the lock is free. So it is under every infinite schedule that gives each of them a turn again and again, from some time on. Meanwhile anybody may do anything to shared memory that leaves the lock's blocks alone.", "quantifier": "every number of processes, every fair schedule, everything done to other blocks meanwhile", "why_tests_cant": "a test sees finitely many schedules of finite length; starvation shows only in the limit, and the bound on the rounds is over all schedules", "anchors": ["dustgoggles/codex/implements.py:158-256 SlidingLock"]}
{"id": "C92", "title": "The pickle codec copies graphs of objects, byte for byte reproducibly", "statement": "Take any value made of None, booleans, integers, floats, text, bytes, lists, tuples and dictionaries, where objects may occur several times and within themselves. If the pickle codec encodes it, then decoding the bytes, whatever follows them, gives a copy: the objects of the two correspond one to one, each has the contents of its counterpart item by item in the same order, what was one object is one object again and cycles are cycles. Decoding any proper prefix of the bytes fails. Encoding what was decoded, or any other copy, gives the same bytes. Encoding succeeds if nothing is nested as deeply as the recursion limit and sizes fit.", "quantifier": "every finite or cyclic graph of such objects, every recursion limit, every point where the bytes are cut, everything that may follow them", "why_tests_cant": "a test encodes a few values; sharing, cycles through tuples, batches of a thousand, frames of 64 KiB and the widths of integers interact in unboundedly many ways, and a truncated pickle would have to be tried at each byte", "anchors": ["dustgoggles/codex/codecs.py:50-64 pickle_codec_factory", "dustgoggles/codex/implements.py:731 Notepad", "dustgoggles/codex/implements.py:944 Sticky"]}
{"id": "C93", "title": "A Notepad or Sticky with its default codec keeps every ordinary Python value", "statement": "Let values be made of None, booleans, integers, floats, text, bytes, lists, tuples and dictionaries, nested less deeply than the recursion limit, and let their parts be shared among objects in any way. Whatever histories of setting, getting, deleting, listing and clearing a Notepad with the default (pickle) codec went through, in any number of handles, what it answers next is what a dict of these values would answer. Stickies at one address, as long as only floats, only booleans or only integers of one size are stuck, accept each and give back the last one when reread. Integers of different sizes are not accepted: a Sticky that has 255 refuses 256.", "quantifier": "every value of these kinds, every way their objects are shared, every history, every recursion limit", "why_tests_cant": "it combines every value with every history; a test tries some values in one history, and a counter in a Sticky fails only once it needs another byte", "anchors": ["dustgoggles/codex/codecs.py:50-64 pickle_codec_factory", "dustgoggles/codex/implements.py:731 Notepad", "dustgoggles/codex/implements.py:944 Sticky", "dustgoggles/codex/memutilz.py"]}
{"id": "C94", "title": "Guarded index operations are all done under a fair schedule", "statement": "Let any number n of processes each add, remove or look up a key of the same TagIndex inside `with SlidingLock(name)`. If turns (of one shared memory operation each) are given to them in any order, such that whoever may not move at present by the rule of C86 lets its turn pass, and the schedule goes more than n(2n+23) + 30n times through all of them, then every process is out of the lock without an exception; there is an order of all of them such that each has the result its operation has when they are done one after another in that order, and whoever looks at the index sees the keys of that history; and the lock is free. So it is under every infinite schedule that gives each of them a turn again and again, from some time on. Meanwhile anybody may do anything to shared memory that leaves the blocks of the index alone.", "quantifier": "every index reached by any history, every number of processes, every choice of operations on plain keys, every fair schedule, everything done to other blocks meanwhile", "why_tests_cant": "termination and the bound are over all schedules of all lengths, and what is right depends on the order the schedule produces; a test sees one schedule", "anchors": ["dustgoggles/codex/implements.py:158-256 SlidingLock", "dustgoggles/codex/implements.py:391-401 check", "dustgoggles/codex/implements.py:403-484 add, remove"]}
{"id": "C95", "title": "Processes with keys of their own share a Notepad", "statement": "Let any number of processes each set, delete or read (get included) one entry of the same Notepad at the same time, such that a key that one of them sets or deletes is used by no other. However their shared memory operations are interleaved, as long as while one takes its slot at the lock no other takes a slot or removes a marker: every process that is through has the result its operation would have had alone at the start, and from that moment on anybody finds under its key what it left there, no matter what the others are in the middle of; keys nobody writes keep their values throughout. Once all are through, there is an order in which their results, and everything later visitors are told, are those of the operations one after another, and the lock is free again. A schedule that goes through all of them often enough (n(2n+23) + 30n + 31 times for n processes), hence every fair schedule from some time on, gets all of them through. Without keys of their own it is not so: two processes overwriting the same key with exists_ok may have one refused with KeyError, and a reader of a key being overwritten may get FileNotFoundError or a value nobody ever set.", "quantifier": "every notepad reached by any history, every codec and hash without collisions, every number of processes, every choice of operations and keys subject to the rule, every orderly interleaving, every fair schedule, everything done to other blocks meanwhile", "why_tests_cant": "the interleavings of several processes' operations, some inside the index's lock and some outside it, are unboundedly many; a test sees a few of them and not the harmful ones for shared keys", "anchors": ["dustgoggles/codex/implements.py:749-785 Notepad.__getitem__, get, __setitem__, set, __delitem__", "dustgoggles/codex/codecs.py:77-109 memorize, remember", "dustgoggles/codex/memutilz.py:5-54 open_block, fetch_block_bytes, exists_block, delete_block", "dustgoggles/codex/implements.py:158-256 SlidingLock", "dustgoggles/codex/implements.py:403-484 add, remove"]}
{"id": "C96", "title": "Debug logging", "statement": "With debug=True, and the directory ../holding there to write the log in, every operation of the indexes, Notepad and GridPaper has the same effect on shared memory, the same result and the same exception as without; it only appends lines to the log, and with debug=False none. A set or del on a Notepad nobody else is using appends exactly the lines: taking slot, placed lock, taking precedence (numbered with the next number of the lock), what happened to the index, entering cleanup, set floor, released lock, released marker, and for a set the key and value. Waiting with a limit for somebody who never leaves logs the slot and the lock, the nearest slot with precedence once for each round, the timeout, the crash and the two releases. If the directory is missing, debug=True does more than logging: nothing that is to be done under the lock is done and FileNotFoundError is raised; one marker stays for each attempt, which others without debug go past if they can skip that many, and which nobody removes. After any number of failed sets, all keys and values are as before. A del fails with KeyError although the key is there: its value is gone and the key still listed, or, with no_lockout, off the list, and when it is set again it has a value and is never listed. A set with no_lockout lists a new key without a value.", "quantifier": "every operation, index, notepad history, codec and hash without collisions, every prior log, every text of here(), every number of failed attempts and markers", "why_tests_cant": "no test switches debug on; that it changes nothing is about all programs and stores, and the damage without a directory builds up over attempts and is seen by other processes only", "anchors": ["dustgoggles/codex/implements.py:106-114 here, log", "dustgoggles/codex/implements.py:158-256 SlidingLock", "dustgoggles/codex/implements.py:413-484 TagIndex", "dustgoggles/codex/implements.py:570-600 MetaTagIndex", "dustgoggles/codex/implements.py:761-785 Notepad.__setitem__, __delitem__", "dustgoggles/codex/implements.py:865-913 GridPaper"], "originally": "debug=True only adds lines to a log: the effects on shared memory, results and exceptions of all operations are those without it."}
{"id": "C97", "title": "Stickies in concurrent use", "statement": "Once a value is posted at an address, Stickies of any number of processes there are together an atomic register with caches as long as nobody closes it: however their operations interleave, at every moment the calls made so far can be put in an order, which only grows at its end, such that every process has been told exactly what it would be told if the calls were made one at a time in that order, and the address has the value that would then be there. A call is in the order at the latest when it returns and never before it begins. No call waits for another: each returns after at most six turns of its own process. If all encodings have one length, no stick fails and no read gives a value that was not posted, cached or stuck by somebody. Before a first value is posted this fails: of two first sticks of one length one may raise ValueError, and a read may give what a block of zeros decodes to or raise ValueError; and a value stuck while another process closes the address is lost although the stick succeeds.", "quantifier": "every number of processes, every sequence of calls of each, every interleaving and activity on other blocks, every codec, every prior store and cache", "why_tests_cant": "the tests use Stickies from one process; the outcome depends on the interleaving of operations of several", "anchors": ["dustgoggles/codex/implements.py:936-1004 Sticky", "dustgoggles/codex/memutilz.py:5-19 open_block"], "originally": "Concurrent stick and read calls at one address are linearizable."}
{"id": "C98", "title": "Blocks copied byte by byte", "statement": "Let reading and writing a block take one turn for each byte, in any order, with other processes' turns in between. As long as the counter of a SlidingLock fits into one byte (fewer than 256 entries in all), and while one process takes its slot no other takes a slot or removes a marker, there are never two processes inside, slots are served in order, nobody fails, and the lock is free in the end. Beyond that it is not so: when the counter goes from 255 to 256, a process that looks at it between the first and the second byte takes slot 1 again, and two processes are inside at once although nobody moves while another enters. Stickies at one address where a value is posted behave as an atomic register (as in C97) if the encodings of the same length differ in one byte only, as those of pickled integers from 0 to 255 do. With any encodings, whatever is found at the address or read has the length of the first value, and each of its bytes was written at its place by somebody; but a read during a stick may give half of it, and after two successful sticks the address may have neither value.", "quantifier": "every number of processes, every order of bytes and interleaving, everything done to other blocks meanwhile, every counter below 256, every codec, every choice of calls", "why_tests_cant": "a copy of five bytes is interrupted too rarely to be seen, and the carry of the counter happens once in 256 entries; the absence of harm below that is a statement about all interleavings of all bytes", "anchors": ["dustgoggles/codex/implements.py:182-256 SlidingLock", "dustgoggles/codex/implements.py:968-992 Sticky.read, stick", "dustgoggles/codex/memutilz.py:5-34 open_block, fetch_block_bytes", "dustgoggles/codex/codecs.py:50-64 pickle_codec_factory"]}
{"id": "C99", "title": "Random values for the tests", "statement": "For str, int, float and tuple, randval always returns: text of one to ten ASCII letters, an integer from -100000 to 100000, a float with at most two decimals of at most 100000.00 in size (or -0.0), a tuple of one to ten such floats; and every such value can come, for a suitable generator. In particular multiplying by 52 in doubles never selects a 53rd letter, and the two roundings of a float leave it within half a hundredth (and a billionth of one) of the number drawn. Any other callable is called, anything else is a TypeError. As keys, two such values are the same just when they are equal as text, numbers or tuples of numbers; so int and float keys may coincide (5 and 5.0). With these types random_nested_dict always returns if there is one level (at most that many entries) or one entry (dictionaries in one another down to the value), and otherwise raises nothing but TypeError and AttributeError; with the default arguments and two entries it may raise either.", "quantifier": "every generator of 32-bit words and of integers below a bound, every state of it, all 2^53 numbers of random.random(), every quantity, depth and choice of the types", "why_tests_cant": "there are 2^53 outcomes of random.random(), and the ones at which rounding could go wrong (the last few before 1) never occur in a test; collisions of keys are rare", "anchors": ["dustgoggles/test_utils/core.py:14-28 randval", "dustgoggles/test_utils/core.py:31-64 pick_key_at_level, random_nested_dict"]}
{"id": "C100", "title": "What notepads, Stickies and stacks print", "statement": "After any history of use, printing a Notepad or a GridPaper gives its class, \" with keys \" and a list that, read as a literal, is exactly the keys it should have, in the order they were added, whatever quotes or other signs occur in the keys; printing changes nothing, and two notepads print the same only if they have the same keys in the same order. A Notepad with an index can be printed in any state of memory without empty key blocks. A Sticky prints the value which this object stuck or read last (and \"unread sticky\" before that), in a form that can be read back if it is a literal. printstack gives name, line and function of every frame in a form that can be taken apart again if there are no colons or semicolons in them. It is not so that a GridPaper can always be printed: if a process dies while deleting a key, printing raises FileNotFoundError. Nor is what a Sticky prints always what is at its address; nor does the text of a stack determine the stack (not the directories, and with colons or semicolons not even the number of frames).", "quantifier": "every history of a Notepad or GridPaper, every set of keys, every state of memory with an index, every history of any number of Stickies at one address, every stack", "why_tests_cant": "printing is used in no test; that the text can be read back holds for all keys, including those with quotes, backslashes and commas", "anchors": ["dustgoggles/codex/implements.py:117-123 printstack", "dustgoggles/codex/implements.py:818-822 Notepad.__str__, __repr__", "dustgoggles/codex/implements.py:927-933 GridPaper.__str__, __repr__", "dustgoggles/codex/implements.py:994-1004 Sticky.__str__, __repr__"]}
{"id": "C101", "title": "What a parent can do with a child process", "statement": "Let a parent that has started a piped function join and receive in any order, any number of times. If the child has something to send, the parent gets through on every schedule exactly if it receives at most once and either what is sent fits in the pipe or it does not begin by joining; it has then received a copy if it was to. So receiving before joining works for every size, where wrap_piped, which joins first, hangs. If nothing can be sent, it gets through exactly if it does not receive; if the function does not return, only a parent that does nothing gets through. With block anything but True itself (also 1) the wrapper returns at once and nobody receives: the child ends if what it sends fits, and otherwise waits for ever, as does whoever joins it (also the interpreter on exit). Closing the process after joining it, as the wrapper does, never fails; after receiving only, it may, as the child need not have ended yet.", "quantifier": "every sequence of joins and receives, every result and size, every size of the pipe from one byte, every schedule, every value of block", "why_tests_cant": "schedules, sizes of results and of the pipe; a hang is not a failed assertion", "anchors": ["dustgoggles/test_utils/core.py:67-77 piped", "dustgoggles/test_utils/core.py:80-92 wrap_piped"]}
{"id": "C102", "title": "Reading an index without a lock while several processes add to it under one", "statement": "Let any number of processes each add a key (or look) in a guarded section of a TagIndex in orderly interleavings, and let, from any moment on, any number of readers list the keys and check for keys without taking the lock. Then the readers see an index that grows to the keys of the lock users in the order in which these came to the guarded section: each listing is a beginning of those keys, perhaps with one entry of NULs after it, listings only grow, a key that nobody adds is never found, a key is found at its place or, before the next key is listed, at 0 or not at all. All that was added by the processes that were through with the guarded section when the readers started is seen from the start. A reader that fails gets ValueError, and only if something was added since. The lock users get the same results as without readers, also when they remove keys.", "quantifier": "every history of the index, every number of lock users and readers, every operation that removes nothing, every orderly interleaving, every moment at which readers start", "why_tests_cant": "interleavings of three kinds of processes at single operations on shared memory; what is seen in between lasts for microseconds", "anchors": ["dustgoggles/codex/implements.py:391-411 update, check, _enumerate_keys", "dustgoggles/codex/implements.py:413-443 _add, add", "dustgoggles/codex/implements.py:153-185 SlidingLock"]}
{"id": "C103", "title": "Numpy's scalars as objects of Python", "statement": "itemize_numpy of a scalar of numpy is accepted by json.dumps exactly for truth values, integers, floats and text (standing for their own value), missing dates and durations (null), dates and durations that Python's types cannot hold (their count of units) and records of such; for everything else json.dumps raises TypeError; what json.dumps accepted before gives the same document afterwards. No scalar of numpy is left, at any depth of a record, except long doubles, real and complex. A date in weeks to microseconds becomes the date or datetime of the same instant if that lies in the years 1 to 9999, months and years the first of the month or year; numpy's arithmetic of days is the Gregorian calendar, without limit. A duration becomes a timedelta of the same length within 999999999 days. Otherwise the bare count is returned, so that different units become equal. Scalars inside a list are left as they are. A second application changes nothing.", "quantifier": "every scalar of numpy (records nested to any depth), every unit, step and count of time, every other object", "why_tests_cant": "the test has one integer and one void; the calendar has no last day, and limits (year 9999, 999999999 days, a leap century) are met by single values out of 2^64", "anchors": ["dustgoggles/pivot.py:22-29 itemize_numpy"], "originally": "itemize_numpy converts any scalar of numpy to an object of Python, so that json.dumps accepts it and its value is kept."}
{"id": "C104", "title": "Text methods over a Series", "statement": "A function made by pdstr returns for exactly the Series (of objects) that hold neither only numbers nor only truth values nor only bytes, beside missing cells, given a method that there is, arguments that fit it and no cell that raises anything but TypeError and AttributeError; each cell of the result comes from the cell at its place, missing cells and cells that raise one of these two being missing. Otherwise: AttributeError for numbers, truth values and unknown names (in this order, before the arguments are looked at), TypeError for bytes and arguments that do not fit, or what a cell raised. Series put one after another give the results one after another; but a part of a Series may fail where the whole does not.", "quantifier": "every table of methods that work cell by cell, every name, every arguments, every Series", "why_tests_cant": "the test calls one method on columns of text; whether a Series is accepted depends on all of its cells together, and the fallback for cells that fail on any single one", "anchors": ["dustgoggles/pivot.py:118-127 pdstr"], "originally": "A function made by pdstr does with each cell of a Series what the method does with it, so that parts of a Series can be treated separately."}
{"id": "C105", "title": "extract_constants with lists in cells", "statement": "Where cells may be lists (of atoms), extract_constants raises ValueError if any series it looks at begins (nulls apart that do not count) with a list whose length is not the number of cells that count. Otherwise it is extract_constants with a comparison by which nothing equals a list: for how='rows' the constants are the columns in which only atoms count, all equal to the first. A column beginning with a list is never among the constants, not even with a single row. The handler of TypeError, written for such columns, is never reached, so that neither NotImplementedError nor TypeError is raised; it would have found the columns of equal lists.", "quantifier": "every frame with atoms and lists in its cells, every comparison of atoms, all options", "why_tests_cant": "the test has no lists; whether a list is an error depends on whether its length happens to be the number of rows", "anchors": ["dustgoggles/pivot.py:59-109 extract_constants"], "originally": "extract_constants treats columns of equal lists as constant."}
{"id": "C106", "title": "Reading an index without a lock while keys are removed under one", "statement": "A reader without a lock beside processes that remove keys in guarded sections of a TagIndex in orderly interleavings does not have the guarantees it has beside processes that add keys (C102). Even if nobody adds anything and a single key is removed, a listing may lack a key that is in the index all the time, may give a key twice, may hold NULs that were never a key (so it is no state of the index), or may fail with ValueError, and a check for the key that is removed may fail with FileNotFoundError. Beside any guarded operations nothing else goes wrong: the reader gets an answer of the right kind to each question, or ValueError, or, if it checks for keys, FileNotFoundError.", "quantifier": "every history of the index, every guarded operation, every orderly interleaving with a reader; the failures are existential", "why_tests_cant": "each failure needs the reader to be interrupted between two particular operations on shared memory", "anchors": ["dustgoggles/codex/implements.py:391-411 update, check, _enumerate_keys", "dustgoggles/codex/implements.py:445-480 _delitem", "dustgoggles/codex/implements.py:153-185 SlidingLock"], "originally": "A listing of the keys of an index by a reader without a lock, while others remove keys under the lock, is the keys the index had at some moment."}
