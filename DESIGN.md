# Formal model of dustgoggles in Rocq (Coq 8.16.1)

`properties.jsonl` lists 106 properties. `MANIFEST.json` names the theorems
(581 in all) that prove them. `seeded/LOG.jsonl` records deliberate bugs put into
the model, and which theorems noticed.

## Layout

Everything is under `rocq/theories/` (logical name `Verif`). Each area of the
code has some of these files:

* `<Area>_Model.v`: Gallina functions, one per function of the code, each citing
  the file and lines of `/repo` it models. No proofs.
* `<Area>_Spec.v`: the vocabulary of the theorems, written without the helpers
  of the model: what someone who only knows the English property would write.
* `<Area>_Lemmas.v`, `<Area>_Proofs.v`: lemmas.
* `<Area>_Props.v`: the theorems of the properties, each followed by
  `Print Assumptions` and by an `Example` in which a concrete, non-trivial case
  meets its hypotheses.

| area | models |
|------|--------|
| `Py`, `Eff`, `Float` | Python values, dicts, exceptions; calls with effects; IEEE doubles and exact numbers |
| `Struct`, `Pool` | structures.py; its pool classes |
| `Func` | func.py |
| `Comp`, `Nest` | composition.py; compositions as steps, and what trackers change |
| `Track`, `Json` | tracker.py; the JSON text it writes |
| `Shm` | POSIX shared memory, codex/memutilz.py, the generic mnemonic |
| `Codec`, `CodecGrid`, `Pickle`, `Kept` | the JSON and AST codecs, array metadata; the pickle codec; values stored with it |
| `Lock`, `Spin`, `Conc`, `Free`, `Fair`, `Done`, `Race`, `Live`, `Serial`, `Team` | SlidingLock and FakeLock: one process; waiting; several processes at once; deadlock; starvation; the same for guarded index operations; reading an index while it is written; writing it in turns; several processes at one Notepad |
| `Index`, `Meta` | TagIndex; MetaTagIndex |
| `Pad`, `Grid`, `Sticky`, `Reserved`, `Dump` | Notepad; GridPaper; Sticky; keys that collide with the index; dumping to files |
| `Exit` | the resource tracker and processes that end |
| `Dyn`, `Dig` | dynamic.py; digsource |
| `Mosaic`, `Summary` | mosaic.py; its tables of metadata |
| `Down`, `Frame` | pivot.py: downcasting; everything else |
| `Scrape` | scrape.py |
| `Tutil`, `Rand` | test_utils/core.py: pipes; random_nested_dict |
| `Tests` | the repository's own tests, as examples on the models |

## General modelling choices

* Exceptions are values: `res A := Ok a | Exc e`. Functions mirror the code
  branch by branch in that monad.
* A Python `dict` is an association list in insertion order. Assignment to an
  existing key keeps its position and the old key object. Key equality is
  Python's (`True == 1`), an equivalence relation, not Leibniz equality.
* Callables given by the user (predicates, setters, steps, codecs, hash
  functions, random generators) are universally quantified Gallina functions
  that may raise; where it matters they also have effects (`eff W A`).
* Loops and recursions that may not end in Python take fuel. Theorems either
  exclude running out of it, or prove that it happens for every amount.
* Mutation through references is modelled by returning the new value. Where
  aliasing matters (captures, tracker history, Dynamic's globals, memo tables,
  shared memory handles) there is an explicit heap or store.
* Shared memory is a store of named blocks with identities of their own, so
  that handles survive unlinking. Programs are a free monad over primitive
  operations. One program text thus has a sequential semantics, a crash
  semantics (stop after any primitive) and an interleaving semantics (any
  schedule of the primitives of several processes).
* Numbers in `Mosaic` and `Down` are a parameter with the laws used as
  hypotheses. The hypotheses are discharged for exact rationals and for IEEE
  binary64 as specified by the standard library's `SpecFloat`.

## Refuted properties

Several things that the documentation, a name or common sense promise are false
of the code as written. Their statements were reworded to what is true
(the first wording is kept in the field `originally`: C02, C03, C06, C09, C10, C12, C14, C23, C34, C38, C39, C40, C42, C44, C45, C46, C47, C48, C49, C96, C97, C103, C104, C105, C106). The strongest true
version is proved, and the failure is a theorem `..._refuted` with a witness or,
where the failure is general, a universally quantified statement.

## Properties and proofs

| id | property | file | theorems | how |
|----|----------|------|----------|-----|
| C01 | dig_for_items/values/keys find everything and nothing else | `Struct_Props` | 4 | relation "item reachable in the tree" defined by induction; order and completeness by induction on the tree, including predicates that raise |
| C02 | dig_for_item/value/key return the first match of the exhaustive search | `Struct_Props` | 6 (1 refuting) | first element of the exhaustive answer; depth counterexample |
| C03 | constant references in the dig functions | `Struct_Props` | 4 (1 refuting) | the answer with the predicate the reference stands for; arity of operator.eq under match='item' |
| C04 | dig_and_edit edits exactly the matching entries | `Struct_Props` | 5 | edited tree specified path by path; induction on remaining depth; divergence by induction on fuel when the setter builds new matches |
| C05 | unnest flattens without losing or inventing leaves | `Struct_Props` | 5 | leaves with their formatted paths as the spec; induction on the tree |
| C06 | unnest never merges distinct leaves | `Struct_Props` | 6 (4 refuting) | unique decoding of a joined path when a character of the escape is foreign to the keys |
| C07 | to_records emits one complete record per leaf mapping | `Struct_Props` | 3 | list of leaf mappings with their paths; induction on depth and on the stream of level names |
| C08 | rmerge is the recursive right-biased union | `Struct_Props` | 4 | lookup along every path of the merged tree; induction on both trees |
| C09 | algebra of rmerge | `Struct_Props` | 5 (2 refuting) | identities by the path characterisation of C08; associativity under compatibility; counterexamples |
| C10 | insert_after inserts the new entry right after the prior key | `Struct_Props` | 5 (1 refuting) | the four cases of presence, by induction on the list of entries |
| C11 | NestingDict creates levels on demand and converts losslessly | `Struct_Props` | 5 | path get/set laws on trees; conversion by induction on depth |
| C12 | get_from walks items then attributes, or returns the default | `Struct_Props` | 5 (1 refuting) | fold of a lookup relation over the keys |
| C13 | separate_by partitions stably | `Struct_Props` | 2 | filter/partition laws by induction |
| C14 | HashDict returns what was stored | `Struct_Props` | 6 (2 refuting) | invariant over all histories of assignments |
| C15 | pooled map returns every call's result under its key | `Pool_Props` | 7 | every completion order (permutation) and every division into chunks; induction over records |
| C16 | one failing call does not lose other calls' results | `Pool_Props` | 9 (1 refuting) | every completion order (permutation) and every division into chunks; induction over records |
| C17 | pool progress counters are consistent | `Pool_Props` | 5 | counters as functions of the set of finished calls, for every moment of every schedule |
| C18 | small mapping helpers | `Struct_Props` | 4 | induction on the list of entries |
| C19 | are_in decides containment | `Func_Props` | 4 | membership characterisation for lists of any length |
| C20 | intersection and disjoint | `Func_Props` | 6 | membership characterisation for lists of any length |
| C21 | optionalize never lets an ordinary exception escape | `Func_Props` | 5 | all callables, results and exceptions |
| C22 | argument adapters | `Func_Props` | 16 | all callables; iterators as state machines, induction on what is left in them |
| C23 | execute runs the steps as a left-to-right pipeline | `Comp_Props` | 3 | pipeline of effectful functions as a fold; induction on the list of steps |
| C24 | signal placement among positional inserts | `Comp_Props` | 3 | position of the signal in the argument list, all insert dictionaries |
| C25 | partial steps | `Comp_Props` | 2 | argument lists of partial objects, all orders of binding |
| C26 | sends deliver the step's output before the next step runs | `Comp_Props` | 8 | a trace of the world: what is delivered when, by induction on the steps |
| C27 | executions do not influence each other, unless there is feedback | `Comp_Props` | 2 (1 refuting) | two-run relational proof: same results from worlds that differ only in what is delivered |
| C28 | captures hold each step's last output | `Comp_Props` | 2 | the captured dictionary after every prefix of every execution |
| C29 | tracked executions record every step and the failing step | `Comp_Props` | 7 (1 refuting) | tracker history as a function of the steps run; failing position |
| C30 | add_step appends or replaces, reindex renames | `Comp_Props` | 7 (2 refuting) | operations on the ordered dictionary of steps |
| C31 | the tracker log file is always a JSON array of all dumps | `Track_Props` | 9 (1 refuting) | file contents after every history of dumps, and after every prefix of the bytes of an interrupted one; a JSON reader that is proved to invert the writer |
| C32 | what a failed or interrupted dump leaves behind | `Track_Props` | 9 (1 refuting) | file contents after every history of dumps, and after every prefix of the bytes of an interrupted one; a JSON reader that is proved to invert the writer |
| C33 | history numbering and metadata precedence | `Track_Props` | 3 | induction over histories of track/set_metadata/clear |
| C34 | shared memory block helpers | `Shm_Props` | 6 (2 refuting) | symbolic execution of the programs in every well-formed store |
| C35 | memorize / remember round-trip | `Shm_Props` | 4 | symbolic execution of the programs in every well-formed store |
| C36 | little-endian counters | `Shm_Props` | 3 | positional arithmetic of little-endian bytes, all integers |
| C37 | TagIndex behaves as an insertion-ordered set with swap-removal | `Index_Props` | 5 | representation invariant (`RepN`) and refinement of an abstract list, induction over histories of visits by any number of processes |
| C38 | TagIndex with awkward keys | `Index_Props` | 2 (2 refuting) | exact effect in every reached index |
| C39 | TagIndex add and remove are crash-atomic | `Index_Props` | 4 (2 refuting) | enumeration of every prefix of the primitive operations, in every reached index |
| C40 | closing an index destroys everything about it | `Index_Props` | 2 (1 refuting) | leftovers computed from the representation invariant |
| C41 | MetaTagIndex maps keys to metadata | `Codec_Props`, `Index_Props` | 5 | representation invariant `MRep`; the lock never becomes free for every amount of waiting |
| C42 | removing from a MetaTagIndex terminates | `Index_Props` | 4 (2 refuting) | representation invariant `MRep`; the lock never becomes free for every amount of waiting |
| C43 | Notepad behaves as a dict | `Pad_Props` | 2 | representation invariant `PRep`; refinement of a list of entries, then of a dict, over all histories |
| C44 | Notepad.get returns the default for a missing key | `Pad_Props` | 2 (1 refuting) | representation invariant `PRep`; refinement of a list of entries, then of a dict, over all histories |
| C45 | Notepad.close leaves nothing behind | `Pad_Props` | 2 (1 refuting) | representation invariant `PRep`; refinement of a list of entries, then of a dict, over all histories |
| C46 | a failed Notepad assignment has no effect | `Pad_Props` | 2 (1 refuting) | representation invariant `PRep`; refinement of a list of entries, then of a dict, over all histories |
| C47 | Notepads with different prefixes are independent | `Pad_Props` | 2 (1 refuting) | disjointness of address spaces (frame condition) over mixed histories |
| C48 | GridPaper returns the array last stored | `Codec_Props`, `Pad_Props` | 12 (4 refuting) | representation invariant `GRep` over all histories; instantiated with the JSON codec of C77 |
| C49 | Sticky delivers the last value stuck | `Pad_Props` | 4 (2 refuting) | abstract contents of one address over all histories of several handles |
| C50 | SlidingLock mutual exclusion | `Conc_Props` | 5 (2 refuting) | invariant over all schedules with orderly entries (one at a time, no marker removed meanwhile), any number of processes; counterexample schedules otherwise |
| C51 | SlidingLock serves in slot order and releases cleanly | `Conc_Props` | 3 (1 refuting) | invariant over all schedules with orderly entries (one at a time, no marker removed meanwhile), any number of processes; counterexample schedules otherwise |
| C52 | a dead lock holder blocks everyone | `Conc_Props` | 4 (2 refuting) | invariant over all schedules with orderly entries (one at a time, no marker removed meanwhile), any number of processes; counterexample schedules otherwise |
| C53 | concurrent overwrites and fetches of one note | `Conc_Props` | 3 (1 refuting) | all interleavings of primitive operations of any number of processes; each listed outcome is attained |
| C54 | Dynamic lifecycle | `Dyn_Props` | 9 (1 refuting) | state machine; induction over histories of loads, calls and attribute changes |
| C55 | Dynamic error accounting | `Dyn_Props` | 3 | state machine; induction over histories of loads, calls and attribute changes |
| C56 | Dynamic bad source and from_function | `Dyn_Props` | 6 | state machine; induction over histories of loads, calls and attribute changes |
| C57 | sort_chunked output is the sorted input | `Mosaic_Props` | 13 (3 refuting) | permutation and sortedness for any ordered numbers; exact rationals and IEEE doubles as instances |
| C58 | read_between returns exactly the rows in the half-open interval | `Mosaic_Props` | 1 | permutation and sortedness for any ordered numbers; exact rationals and IEEE doubles as instances |
| C59 | integer downcast is lossless and minimal | `Down_Props` | 2 | integer ranges, all arrays |
| C60 | float downcast stays within tolerance | `Down_Props` | 10 (1 refuting) | any numbers with a total preorder apart from NaN; IEEE doubles and rationals as instances |
| C61 | duplicate columns | `Frame_Props` | 4 (1 refuting) | lists of named columns; induction on columns and rows; frames of any size |
| C62 | extract_constants | `Frame_Props` | 9 (2 refuting) | lists of named columns; induction on columns and rows; frames of any size |
| C63 | row selection helpers | `Frame_Props` | 8 | lists of named columns; induction on columns and rows; frames of any size |
| C64 | trim_label cuts at the first label ending | `Scrape_Props` | 9 (3 refuting) | bytes and positions; UTF-8 validity proved equivalent to encodings of scalar values |
| C65 | cached readers | `Scrape_Props` | 10 (2 refuting) | invariant of the memo tables over all histories of calls and file changes |
| C66 | scrape_patterns returns one entry per requested field | `Scrape_Props` | 7 | induction on the requested fields |
| C67 | wrap_piped returns the child's result | `Tutil_Props` | 5 | two processes and a bounded pipe; every schedule, payload and capacity |
| C68 | downcast_df and the index | `Down_Props` | 6 (1 refuting) | lists of named columns; induction on columns and rows; frames of any size |
| C69 | typed_columns | `Frame_Props` | 5 (3 refuting) | lists of named columns; induction on columns and rows; frames of any size |
| C70 | smash | `Frame_Props` | 4 | lists of named columns; induction on columns and rows; frames of any size |
| C71 | unpack and unpack_column | `Frame_Props` | 4 (1 refuting) | lists of named columns; induction on columns and rows; frames of any size |
| C72 | unique_to_records | `Frame_Props` | 2 (1 refuting) | lists of named columns; induction on columns and rows; frames of any size |
| C73 | scrape_subframe | `Scrape_Props` | 5 (2 refuting) | induction on the requested fields |
| C74 | get_label_text of part of a file | `Scrape_Props` | 5 (1 refuting) | bytes and positions; UTF-8 validity proved equivalent to encodings of scalar values |
| C75 | random_nested_dict | `Tutil_Props` | 8 (3 refuting) | all random generators, by induction on the items left to place; non-termination for every number of draws |
| C76 | waiting for a SlidingLock with a limit, and closing one | `Spin_Props` | 5 (2 refuting) | the waiting loop by induction on the number of looks; exclusion lost after close |
| C77 | the JSON codec | `Codec_Props` | 8 (1 refuting) | printer and reader proved inverse by mutual induction on values; the texts where they differ exhibited |
| C78 | the AST codec | `Codec_Props` | 5 (2 refuting) | printer and reader proved inverse by mutual induction on values; the texts where they differ exhibited |
| C79 | iterating over and closing a GridPaper | `Pad_Props` | 5 (3 refuting) | from `GRep`, all histories |
| C80 | dumping notepads to files | `Dump_Props` | 6 (2 refuting) | files written as a function of the entries; sanitised names that collide |
| C81 | tables of parquet metadata | `Summary_Props` | 8 (3 refuting) | records with text labels reduced to functions on field names; concatenation, renaming and reindexing by induction on labels and columns |
| C82 | deactivating the resource tracker keeps blocks alive | `Exit_Props` | 8 (3 refuting) | invariant over histories of several processes: a deactivated tracker knows no block; for the others the tracker's set equals what the process has in hand |
| C83 | keys reserved for the index | `Reserved_Props` | 6 (3 refuting) | a guard theorem for each operation; removing one block of a represented index, and what the listing and later operations read then |
| C84 | reading an index that is being written | `Live_Props` | 4 (3 refuting) | a ghost phase that only grows along the writer's operations, an invariant of the store for every phase, and a rule for programs that only look at a moving store |
| C85 | guarded operations happen one after another | `Serial_Props` | 4 (1 refuting) | an invariant that knows who is inside, whom they overtook and what the index held when they came in; the bodies by rely-guarantee over a frame that leaves the lock's blocks to the others |
| C86 | SlidingLock cannot deadlock | `Free_Props` | 1 | from the invariant of C50, extended by what each waiting loop may still do: whoever takes a slot can be run to the end of it, then the owner of the earliest slot can be run to the end, and so on; induction on the slots, then on the processes |
| C87 | guarded index operations cannot deadlock | `Serial_Props` | 1 | the construction of C86 done once for anything that contains the users of a lock, used for the guarded operations: the one inside is run to the end of its section (which cannot get stuck), by the invariant of C85 |
| C88 | compositions of compositions are flat | `Nest_Props` | 8 (1 refuting) | induction on the tree with the pipeline of C23 as specification: the pipeline of a concatenation is the one of the parts |
| C89 | trackers only track | `Nest_Props` | 3 | a simulation between the two compositions whose worlds agree but for trackers, kept by every send and step, by induction over steps and executions |
| C90 | when digsource finds the source of a Dynamic | `Dig_Props` | 6 (1 refuting) | induction over the history, with the function object the Dynamic holds as the state; the histories are those of C54 |
| C91 | Nobody starves at a SlidingLock | `Fair_Props` | 2 | a potential over all the processes: each has a bound on the moves that still bring it forward, from the invariant of C86 strengthened by the number of operations an entry or a look at the slots still takes; no turn increases it, and in every round somebody who can go on (whoever is taking a slot, else whoever has the earliest slot) decreases it |
| C92 | The pickle codec copies graphs of objects, byte for byte reproducibly | `Pickle_Props` | 6 | the opcodes are separated from their bytes: whatever is written is a stream of opcodes in which frames may be put anywhere (induction over the items), and loading a stream executes its opcodes; executing what save emits pushes a copy, by induction over the recursion limit with an invariant that pairs the two memos, in which lists and dictionaries under way are exempt, and within it over items and batches; prefixes: loading is monotone in its input; same bytes: a simulation of the two saves |
| C93 | A Notepad or Sticky with its default codec keeps every ordinary Python value | `Kept_Props` | 6 (1 refuting) | values are trees, and a layout gives each a graph of objects that is shown as this tree; by induction over the number of levels shown, such a graph is proper, nested no deeper than the tree and has its sizes, so C92 applies; then C43 and C49 are instantiated; the lengths of encodings are computed from the opcodes; a layout without sharing is constructed for every tree |
| C94 | Guarded index operations are all done under a fair schedule | `Done_Props` | 2 | each guarded section takes at most 30 operations whatever it reads; a schedule of guarded turns is one of the lock alone (C91) after the turns spent inside are taken out, and the pieces these turns broke are joined to the next; the results by the invariant of C85 |
| C95 | Processes with keys of their own share a Notepad | `Team_Props` | 7 (2 refuting) | rely-guarantee: each process changes at most the block of its own key outside the lock and relies on nobody else changing it; inside the lock the invariant of C85; both joined into one invariant over stages before, at and after the lock; which processes go to the lock depends only on the entries at the start; for progress the three stages are dealt with one after another, the middle one by projecting the schedule to the index and applying C94; one process alone is shown to do what the sequential operation does |
| C96 | Debug logging | `Debug_Props` | 12 (1 refuting) | the logging programs carry the log along; that they agree with the programs without it is shown operation by operation, with the associativity of sequencing; the lines by executing an uncontended lock symbolically around a body whose lines are known; failures: an invariant for a lock with a number of markers left behind, kept by every failing operation, induction over the attempts |
| C97 | Stickies in concurrent use | `Reg_Props` | 4 (1 refuting) | invariant over all moments: what is left of a call before it takes effect is a program that changes nothing until the one operation that does to the block what the sequential specification says; the order of these operations is the order of the calls; a bound on own turns is part of the invariant |
| C98 | Blocks copied byte by byte | `Torn_Props` | 7 (2 refuting) | simulation by whole-block processes: a copy takes effect when the one byte that can differ is copied, at the other bytes the whole-block process stands still (its store is the same as long as all other bytes are zero, or equal); that all bytes are copied in the end by counting; then C50, C51 and C97 apply. Mixtures: an invariant over programs, with the bytes under way |
| C99 | Random values for the tests | `Gen_Props` | 13 (2 refuting) | error bounds for rounding to 53 bits and to hundredths, with the bit length bounded; every value by giving the words that produce it; equality of keys: the code of a tuple is a number whose digits are those of its elements, injective by induction from the end; one entry: the levels form a chain of the keys so far, by induction; the rest by discharging the hypotheses of C75 |
| C100 | What notepads, Stickies and stacks print | `Show_Props` | 13 (4 refuting) | the keys listed are those of C07 and C43 (by the invariants of these), the text by the round trip of repr and literal_eval (C40); Stickies by induction over the history, with what each object has cached; stacks: splitting undoes joining where the separator does not occur |
| C101 | What a parent can do with a child process | `Pipe_Props` | 12 (1 refuting) | an invariant (what is got, in the pipe and still to send make up the frame; a parent past its first join has seen all of it fit) with a measure that every step decreases, and a list of the states in which a run can end |
| C102 | Reading an index without a lock while several processes add to it under one | `Crowd_Props` | 2 | each guarded section that removes nothing is given a trail of phases that holds whatever the others do to other names (the rely of C85 with the phases of C84); with the invariant of C85 this makes any execution a line of stores whose phases only grow, along which the readers' rules of C84 apply; readers leave the store as it is, so to the lock users they are not there |
| C103 | Numpy's scalars as objects of Python | `Item_Props` | 14 (3 refuting) | numpy's division of 400 years is shown to give, for each day, a year of the cycle and a day in it (by cases on century, four years and year); uniqueness of that pair makes each day the one after the last; whole cycles by periodicity, the calendar itself unique by induction in both directions; the limits from the year being monotonic; records by induction on scalars |
| C104 | Text methods over a Series | `Pdstr_Props` | 4 (1 refuting) | the map with the fallback is shown equal to the fallback everywhere (an exception of the first pass is one of some cell); what infer_dtype looks for is characterised by the set of cells; concatenation from that |
| C105 | extract_constants with lists in cells | `Cells_Props` | 7 (1 refuting) | the verdict on one series by cases on its first cell that counts; the loop by induction; the rest is the model of C62 with another comparison |
| C106 | Reading an index without a lock while keys are removed under one | `Shrink_Props` | 5 (4 refuting) | What readers can end with, whatever the store does between their steps, by recursion over their programs; the failures are computed schedules, checked to be orderly |

## Trusted base

* Coq 8.16.1's kernel, including its `vm_compute` conversion (used to
  evaluate examples, witnesses and closed side conditions).
* The standard library, and no other. `Print Assumptions` stands under every
  theorem of the properties. For each of the 581 theorems in `MANIFEST.json` it
  prints `Closed under the global context`: no axioms at all.
* `coqchk` over the whole development lists, besides, seven names
  `Coq.ssr.ssrunder.Under_rel.*`. They are parameters of a module type in the
  standard library, loaded through `Setoid`; no theorem depends on them.
* No `Admitted`, no axioms, no functors, no module types, no plugins.
* The reading of Python, pandas, numpy, pyarrow and POSIX semantics in the
  `_Model` files. No code of `/repo` was built or run; it was read as text. The
  encoder of `Pickle` was compared with the standard library's `pickle.dumps`
  (Python 3.11, protocol 5) on 82 values: the bytes were the same.
* `Tests_Examples.v` says the repository's own tests of the models, with the
  tests' data: 25 of its 28 tests hold by computation; the other three are
  about things that are not modelled (its first comment says which).

## What is modelled

All of `dustgoggles/` except the list below. Every definition of a model cites
its lines. `codex/_array_holding_area.py` consists of comments only.

Not modelled, as functions:

* Wherever a codec occurs in Notepad it is a parameter; theorems assume of
  each value stored that it is either unencodable or decodes to itself. The
  JSON, AST and pickle codecs themselves are modelled, and for pickle, the
  default, the assumption is proved (C93).
* What `implements.here` returns (any text) and encoding errors of the log file (C96).
* `Composition._bind_special_runtime_kwargs` (it does nothing).
* Python's generator of random numbers: `randval` takes words of 32 bits and
  integers below a bound from any generator (C99); in C75 `randval` itself is a
  parameter.
* Garbage collection, and functions registered with atexit.

Not modelled, as behaviour:

* memory running out, recursion limits (except as fuel), signals and
  KeyboardInterrupt (except for workers of a pool), threads;
* the time that passes while waiting for a lock, a pipe or a pool;
* torn reads and writes, outside C98: elsewhere reading or writing a whole
  block is one step; C98 says for the lock and for Stickies what changes when
  it is not;
* file permissions and failing disks; file names that the system rejects;
* values that contain themselves, and two references to one mutable value
  inside another value, except where an explicit heap is used.

The header of each `_Model` file lists its own simplifications:

| model | simplifications |
|-------|-----------------|
| `Struct` | values are trees; functions that mutate return the new value; `mtypes` is a predicate on classes; recursion takes fuel |
| `Pool` | calls are functions of their arguments; everything can be pickled; no record object occurs twice; workers are not killed from outside |
| `Func` | `wraps` is dropped; keyword arguments are one object; iterators only advance |
| `Comp` | steps do not call methods of the composition they are in; mappings given are not shared; pointers are not slices |
| `Track`, `Json` | the directory exists; the clock is an argument; `json.dumps` is a parameter (instantiated for the theorems about reading back); no floats, code points up to 255 |
| `Shm` | no closing of descriptors; names are accepted by shm_open; POSIX only |
| `Codec` | code points up to 255; no floats, sets, bytes or complex numbers; literal_eval on the forms repr writes |
| `Pickle` | CPython's pickler and unpickler, protocol 5, for None, booleans, integers, floats, text, bytes, lists, tuples and dictionaries, and no other classes; code points up to 255; keys are no floats; the limit counts containers; the reasons why loading fails are one |
| `Index`, `Pad` | text is its UTF-8 bytes; sha256 is a parameter without collisions among the keys used; fewer than 2^40 operations where counters matter |
| `Conc` | processes take turns at single primitives, in any order |
| `Torn` | bytes are copied one at a time in any order (the system copies larger pieces, in some order) |
| `Gen` | words come from a generator left open, also how many of them `randint` draws; a float with two decimals is the number of its hundredths; floats as keys only as far as they occur here |
| `Show` | keys are ASCII; the values of Stickies are those of `Py_Model`; a frame is its file, line and function |
| `Pipe` | as `Tutil`; both ends of the connection stay open (the forked child holds them until it ends); a parent joins and receives only |
| `Crowd` | as `Serial` for the lock users and `Live` for the readers; no own model: one more kind of move (an operation of a reader) |
| `Shrink` | as `Crowd`; no own model |
| `Item` | numpy's conversion of scalars and json's encoder are modelled from their sources; a float is its value; text and bytes have no NULs at the end; fields of records are not arrays; counts of time do not overflow; keys of dicts are text |
| `Pdstr` | cells are objects (dtype object), labels do not matter; methods are a parameter and work cell by cell (`extract`, `split` with expand and `cat` do not); the dtype of the result is not modelled |
| `Cells` | as `Frame`, with lists of atoms as cells; pandas' comparison of a Series with a list from its source; in the handler that is not reached, names are distinct and text is not turned into a tuple |
| `Dyn` | compile is a function of the source; the function does not use the Dynamic that holds it |
| `Mosaic` | reading, concatenating and writing tables of one schema do not fail; sorting is stable with nulls last |
| `Down` | one-dimensional arrays of integer or float types |
| `Frame` | labels are not tuples; cells are not lists; pandas 2 |
| `Scrape` | text is its UTF-8 bytes; files change only between calls; digits are 0-9 |
| `Tutil` | forked processes; starting one does not fail |
| `Rand` | leaves cannot be indexed |
| `Dump` | the working directory can be written to |
| `Exit` | POSIX; a block is its name; every process has a tracker of its own (none shared with a parent) |
