# Design: a Rocq model of SpiNNMachine and proofs of its properties

`properties.jsonl` lists the properties, `MANIFEST.json` maps them to theorems
(written by `tools/manifest.py` from the theorem names), `rocq/theories` holds
the development, `seeded/LOG.jsonl` the wrong programs the theorems were tested
against.

## Method

* Shallow model: each Python function becomes one Gallina function, branch by
  branch and in the order of the code, so that the exception raised is the
  first one the code would raise. Each definition cites the file and lines it
  models and says where it simplifies.
* Python exceptions are values: `res A := Ok a | Err exn` with one constructor
  per exception class. Message texts are dropped (Model_Message.v
  has those of machine_repair, Model_Invalid.v those of validate), but a lookup made only to
  build a message, which can itself raise, is kept.
* Python `int` is `Z`; `%` and `//` are `Z.modulo` and `Z.div` (floor
  semantics, as in Python).
* `dict` is an insertion-ordered association list (insertion order is
  observable in Python and so in the model); `set` is a list that is only used
  through membership and size.
* Objects mutated through references become values returned by the function.
  Where aliasing is observable it is modelled: the `CoreSubset` objects inside
  `CoreSubsets` live on a heap (C42-C44, C101), and a router shared by a machine and
  its list of Ethernet chips can be changed later (C62).
* The singleton behind `MachineDataView` is a state, its calls a big step
  relation `call`, user supplied machine generators are arbitrary sequences of
  further calls that end in any result (C49-C52).
* Loops without a static bound (`get_unused_xy`, `machine_repair`) are an
  inductive relation or recursion on fuel whose exhaustion is a separate
  error; theorems show that the relation is total (C31) and that the fuel given
  is enough (C23).
* Floating point (`TriadGeometry`, `size_from_n_boards`, the energy of a
  version) is IEEE binary64 computed exactly by `Coq.Floats.SpecFloat` (pure
  Gallina, no primitive floats); Flocq relates it to real numbers for C57/C58.
* Strings are Coq `string`s of ASCII characters; `int()`, `str.split`, the
  regular expressions of the code and `str.format` are modelled as functions.

## File layout (`rocq/theories`)

`Model_*.v` the model, no proofs. `Spec_*.v` small specifications that do not
use the model's algorithms (they use its data types). `Proof_*.v` lemmas.
`Prop_*.v` the property theorems, named `Cnn_...`, each followed by
`Print Assumptions`, and examples `Cnn_case...` that meet the hypotheses on
concrete data.

A claim of the documentation or of the obvious reading that is false of the
code is not dropped: a theorem `Cnn_..._refuted` proves its negation (or gives
the counterexample), and the property in `properties.jsonl` is stated as it is
true, with the exact condition, and proved.
* `Unit_*.v`: conformance tests. The assertions of `/repo/unittests` transcribed and evaluated
  on the model (versions, factory, chips, routers, links, routing entries, tags, core subsets,
  machines, virtual machines, repairs, JSON, data view). They are the only record of how the
  code behaves that can be had without running it, so they test the fidelity of the model. They
  are tests on literals, not claims: nothing in `MANIFEST.json` rests on them. All of them pass.
  Left out: the log of warnings, `None` where the model has typed arguments, and virtual
  machines of more than 1000 chips (the sizes are tested, the machines are not built).

## Plan per property

| id | what is modelled | specification | proof |
|---|---|---|---|
| C01, C02, C04 | `get_vector_length`, `get_vector`, `_minimize_vector`, `xy_over_link` of the four wrap classes (`Model_Wrap`) | walks of n hops over `xy_over_link` (`Spec_Hops`) | lower bound: potential argument on lifted coordinates; upper bound: the walk of the vector; metric laws from minimality |
| C03, C06 | `xy_over_link`, `Router.opposite`, `get_local_xy`, `get_global_xy` | equations | modular arithmetic |
| C05 | `concentric_xys` | the ball of the hop distance, ordered by radius | closed form of each ring, induction over the radius |
| C07 | `get_xys_by_ethernet`, `get_xy_cores_by_ethernet`, `get_existing_xys_by_ethernet`, `get_down_xys_by_ethernet`, `get_chips_by_ethernet` | membership in the board and in the machine | list induction over the board map |
| C08 | `TriadGeometry.__init__`, `get_ethernet_chip_coordinates`, `get_local_chip_coordinate` in binary64 (`Model_Geometry`) | the hexagon of 48 positions and the lattice of origins (`Spec_Board`) | the 12x12 table by computation, lifted to all of Z by periodicity |
| C09, C10 | `get_potential_ethernet_chips` per version and board | legal origins | ranges with step 12, uniqueness from C08 |
| C11, C15 | `AbstractVersion.__init__`, `verify_size`, `create_machine` | table of supported sizes | case analysis |
| C12, C13, C14 | `size_from_n_boards`, `size_from_n_chips`, `size_from_n_cores`, `virtual_machine_by_*` | enough boards/chips/cores; exact size | error bounds on binary64 division, sqrt and ceil proved on SpecFloat |
| C16 | `quads_maps`, `qx_qy_qp_to_id`, `id_to_qx_qy_qp` | inverse bijections | tables by computation, all other ids by lookup lemmas |
| C70 | as C16; `vec2mesh_reader.py` and the text of `vec2mesh.txt` (`Model_Mesh`) | the line of a core as text | the file is a literal: both inclusions between its lines and the table by computation, lifted to all ids by the look-up lemmas |
| C71 | as C25 and C28 | `Spec_Wiring`: the facing link, the neighbouring board, `wired` (what the look-ups return) | the table by computation; place of a chip on its board is unique, board positions differ modulo the triad lattice, machine sizes that wrap are multiples of 12 |
| C72 | as C02, C06 and C28 | the distance as a function of the board position | distance is the least over all lifts (C01); the lifts of a board position are case-split by multiples of the size |
| C73 | as C28 and C29, with the counters of the machine | number of boards in closed form, chips/cores/links as sums over the places of the boards (Spec_Counts) | permutation of the chips with boards x positions; per position and link a table says which side of the board it leaves by; explicit enumeration of the boards by rows |
| C74 | as C65, with any down items | `dead_chips_apart`, `links_have_detours` (Spec_Detour), `connected` (Spec_Walk) | take the way of C65 on the machine without faults and repair it step by step: over a link that is down take the detour, round a chip that is down walk its ring of six neighbours; induction on the way |
| C75 | machine_repair (Model_Repair) with its calls counted (Spec_Rounds) | `repair_calls` equivalent to `repairs`; n <= 4 | after the first call each link to a present chip has its reverse, after the second no chip is cut off, after the third the machine is clean. With parents (Prop_Chain): a family of machines, one for each k, on which the calls take away one chip after the other; induction on the chips of the row that are left |
| C76 | as C75 | `holds_on`, `two_way` (Spec_Left) on the machine before the repair | these chips and links are a sound part (C33) and so stay; the result is clean (C32) and so has no others |
| C77 | as C75, valid machines | `boards_stay`, `hangs_on`, `holds_on` (Spec_Left) on the machine before the repair | one round raises exactly if an Ethernet chip is lost (validate of survivors); after the first round all is paired, so only the first two rounds can raise |
| C78 | messages of `machine_repair` as text (Model_Message), tied to Model_Repair (same exceptions, raised iff the text is not empty) | `defect`, `has_defect`, `says` (Spec_Message) | lists of defects and messages in step; texts parsed back: numbers end at the first non-digit, the texts of chips of one machine are prefix free |
| C79 | texts of the exceptions of `validate` and `illegal_ethernet_message` (Model_Invalid), tied to `validate` of Model_Machine (a text iff an exception) | `wrong` (Spec_Invalid): what can be wrong with a chip, in words; `chip_well_formed` | case analysis of the checks in their order; first failing chip by induction; texts parsed back as in C55 |
| C80 | `virtual_machine`, `repairs`, the parsers of Model_Ignore, all as before | `lists_missing` (Spec_Again): a cfg whose items are what a machine lacks; `missing_cfg`: such a cfg as text | invariant of the calls of machine_repair: the machine is a cut of the first one and was made from its own chips; a machine is determined by its chips; decimal texts parse back |
| C81 | `get_vector_length` of the four kinds, `virtual_machine`, as before | copies of the destination `(x+i*w, y+j*h)`; `walk` (Spec_Walk) for the real links | the length is the least norm over all lifts (C08); a case split on the residues bounds the least norm of a full wrap, the pairs that attain it are given |
| C82 | `new_entry`, `defaultable`, `xy_over_link`, as before | `carried` (Spec_Straight): a packet passed from entry to entry | induction on the entries with C40; the sum of n equal steps is n times the link's vector |
| C83 | `repairs`, `to_json`, `machine_from_json`, as before | `alike`, `same_layout`, `resources`, `sayable` (Spec_Alike) | every report, check and look up of a call is equal on two alike machines; the new machines are alike again (simulation through `_machine_ignore`); induction on the calls; for JSON: what comes back is alike, and written the same |
| C84 | Model_Heap: chip objects by identity, machines hold references; `hadd_chip`, `hmachine_ignore`, `hrepairs`, `hadd_link` | `held`, `object_at`, `kept_links`, `share` (Spec_Heap) | refinement: what the machines of references look like (`view`) goes through the same calls as the machines by value; objects are only added; per round an object is passed on or, if it loses a link, copied, and lost links stay lost; induction on the calls |
| C85 | the parsers (Model_Ignore) and `virtual_machine` as before | `says_chips`, `says_cores`, `says_links`, `names_core` (Spec_Down) | the theorems of C45, C46, C28 and C29 composed; both directions of reading a text |
| C86 | `to_json_path`, `machine_from_json_path`, and CPython's json.dump and json.load as `json_text` and `json_load` (Model_JsonText); float() of a decimal text as exact rounding (Model_Decimal) | the grammar of JSON texts as an inductive relation, `document`, `chars_text`, `number_text`, `real_text`, `keys_once` (Spec_JsonText), nearest double (Spec_Decimal) | scanner sound and complete for the grammar (mutual induction, any size), fuel never used up (`enough`), printer in the grammar; then C35; a scanner leaves the model only at an `outside_piece` of the text (Prop_Refused) |
| C87 | Model_ViewObjects: the view and the writer with references to Machine and map objects, which the program makes and changes | `machines_after`, `object_after`, `map_object_after` read off the calls; `seen`, `shown`: the same history by value (Spec_ViewObjects) | frame conditions of every call, then refinement of Model_View by mutual induction over nested calls |
| C88 | Model_Told: the model of version_factory, the constructors and verify_size with the texts of the exceptions and the log | `reason`: all that can be wrong, with its place in the order and its text; `size_wrong` (Spec_Told) | case analysis on the settings; the texts of the told function are the reasons of the least rank |
| C89 | Model_Told | `limits_said`, `success_log` (Spec_Told) | case analysis together with C88; the refuted claim about the SDRAM warning by computation of the log |
| C90 | Model_SummaryText: the log of summary_string | tallies and `summary lines` (Spec_Tally) | invariant of the counters over the history; sorting by frequency is stable; uniqueness of the tally and of the lines |
| C91 | Model_ItemText: the parsers with the texts of their exceptions | `chip_fault`, `link_fault`, `core_fault`, `first_fault` over grammars of items (Spec_ItemText) | the told parser agrees with that of C45; case analysis on the fields; induction on the items |
| C92 | Model_Fault | `board_meant` (Spec_Fault) and the texts in the statement | agreement with the lookups of C24, C25; case analysis, the boot chip by the invariant of the machine |
| C93 | Model_Fault | `first_again`, `hex_text` (Spec_Fault) | induction on the list with the keys of the dictionary; a bit of key and not of mask; uniqueness of hexadecimal texts |
| C94 | Model_JsonTold: machine_from_json with the texts of its exceptions | places in a description, `demands` and `first_violated` (Spec_JsonTold) | agreement with the reader of C60 by erasing the texts; each step of the reader reads one demand; induction over the items with the places taken so far |
| C95 | Model_Told.repr_str | `literal` (Spec_Quote) | case analysis on the kinds of characters; the texts of characters are prefix-free |
| C96 | Model_RouteTold: entries and conversion with texts, for any order of listing sets | the texts and ranges in the statements | agreement with C36, C37; the folds fail exactly if a member fails, whatever the order |
| C97 | Model_VirtualTold: virtual_machine with the texts of its exceptions, for any order of the set of down cores | `virtual_demands`, `iterates` (Spec_VirtualTold), `first_violated` (Spec_JsonTold) | agreement with C28 by erasing the texts; the parsers by C91, the size by C88, validation reduced to cores and Ethernet chips as in C79 |
| C98 | Model_Iter: one next() at a time, of CPython's dict and list iterators and of the generators over a board and over one-way links, interleaved with add_chip and add_link | `answers_rightly`, `picked`, `given` (Spec_Iter) | invariants of the iterator state by induction on the history; loops by induction on the board |
| C99 | Model_ViewTold: the calls of the data view and writer with the texts of their exceptions and the log | `quads_known`, `was_set`, `ids_held` (Spec_ViewTold), `version_after`, `map_after`, `machine_after` (Spec_View): what a history leaves | agreement with C49-C52 by erasing the texts; the invariants of C50 and C52 over histories; case analysis on the call |
| C100 | Model_Torn: the states of the files while to_json_path runs, one for every character that arrived | `document`, `blank` (Spec_JsonText) and the states listed as first parts of the final text | a scanner that leaves the model on a text does so on every longer one (induction on the fuel); texts of objects end in their brace, so no first part is a document |
| C101 | Model_SubsetsIter: dict iterators over the collections and subsets on the heap of Model_Subsets, next() and calls as steps; the loops of add_core_subset(s) over the live iterator | `answers_rightly` (Spec_Iter), the calls of Model_Subsets on a copy | every call only appends to dicts and sets; a loop whose body keeps the entries is a fold; own subsets add nothing |
| C102 | Model_SubsetKeys: `__eq__`, `__ne__`, `__hash__`, `__repr__` of CoreSubset on the heap of Model_Subsets, with any hash function; a dict of the program with CoreSubset keys, keeping the hash of each key | `same_cores`, `last_under`, `keys_unchanged` (Spec_SubsetKeys) | sorted frozensets are equal when the members are; under `keys_unchanged` a lookup is a search by content; ids only grow, so what is the same at two times is the same between |
| C103 | Model_Groups: the members of VersionStrings with the text and the list each has now, changed by a program between runs; `from_string`, `_get_cfg_version`, `version_factory` over these | `list_last_put`, `text_last_set`, `left_alone`, `with_version` (Spec_Groups) | induction on the history from its end; a group amounts to the version at the place of minor modulo the length |
| C17, C45, C46 | `parse_cores_string`, `IgnoreChip/Link/Core.parse_*`, physical to virtual ids (`Model_Str`, `Model_Ignore`) | grammars of texts (`Spec_Str`) | induction over strings, both directions |
| C18 | `version_factory` and its helpers over a record of all cfg values | conditions on the settings (`Spec_Factory`) | case analysis |
| C19-C21, C23, C26, C27 | `Machine.__init__`, `add_chip`, look-ups, counters, reports (`Model_Machine`) | map of chips, sums over chips (`Spec_Machine`) | invariants by induction over histories |
| C22 | `validate` | `well_formed` | reflection |
| C68 | as C19 | `looks_same` (`Spec_Order`): equal answers, lists up to order | every observation is a function of the look-ups, or a filter of the chips by such a function |
| C24, C25 | `add_spinnaker_links`, `add_fpga_links`, the look-ups, `Model_Links` | the links of a board and their numbers; for FPGA links the walk around the edge | invariants over the folds, unique keys |
| C28-C30 | `_VirtualMachine` and the four `virtual_machine*` (`Model_Virtual`) | boards minus down chips (`Spec_Virtual`) | fold invariants over C10, exact success condition |
| C64, C65 | as C28 and C02 | walks over links that exist (`Spec_Walk`) | a walk is a route, so C02 bounds it; the board by computation over its 48x48 pairs, boards by induction over the lattice of origins |
| C69 | as C28 and C31 | walks (`Spec_Walk`) | C03: the opposite link leads back; the repaired machine has only links of the original, each with its reverse (C32, C33) |
| C66, C67 | as C28 and C45 | sets of items, chips with less (`Spec_Items`) | the parsers give sets; every step of the construction only asks for membership; monotone chip by chip, then sums |
| C31-C34 | `machine_repair`, `_machine_ignore` (`Model_Repair`) | clean, sub-machine (`Spec_Repair`) | measure = chips + links; the relation is total and deterministic |
| C35, C60, C63 | `json_machine.py` over a type of JSON values (`Model_Json`) | what an item says (`Spec_JsonRead`), what is written (`Spec_JsonWrite`) | chip by chip inverse; both directions |
| C36-C41 | `RoutingEntry`, `MulticastRoutingEntry`, `Router` conversions, tags, links (`Model_Routing`) | bits of the route | `Z.testbit` |
| C42-C44 | `CoreSubset(s)`, `FrozenCoreSubsets` with a heap (`Model_Subsets`) | set of cores of a history | refinement by induction over histories |
| C47, C48 | `Router`, `Chip` | map of links; first occurrences | induction |
| C49-C52 | `MachineDataView`, `MachineDataWriter` (`Model_View`) | state as a function of the history of calls (`Spec_View`) | induction over nested calls |
| C53, C54 | the `__repr__`/`__str__` texts (`Model_Repr`) | texts are equal iff the printed fields are | injectivity of decimal, hex and joined texts |
| C55, C56 | `where_is_*`, `__str__`, `summary_string` (`Model_Text`, `Model_Summary`) | counts over the chips, position on the board | as above |
| C57, C58 | the energy functions of the versions (`Model_Energy`) | real valued power times time, relative error | Flocq rounding lemmas |
| C59 | `==`, `hash` of versions and machines' version (`Model_Identity`) | equations | case analysis |
| C61 | the data tables of the versions | positions of the hexagon and literals (`Spec_Boards`) | computation, lookups for all Z |
| C62 | `Router.add_link` on chips already added (`Model_Mutate`) | the machine made of the changed chips | simulation of both machines over the history |

No listed property is outside what a model can express; what the model cannot
exhibit is listed under "Not modelled".

## Trusted base

* Coq 8.16.1: kernel with its `vm_compute` (used for finite tables and
  examples), `coqc`. No `native_compute`, no plugins, no flags that switch off
  checks; no `Axiom`, `Parameter`, `Admitted`, functor or module type in the
  development.
* That the model is what the Python code does (read by the author; the citations
  give the lines) and that the specifications say what the English says.
* `Print Assumptions`: every property theorem is "Closed under the global
  context", except `C57_idle_energy`, `C57_raises`, `C57_more_is_more`,
  `C58_active_energy`, `C58_at_least_idle`, `C58_more_is_more` and
  `C58_unknown_packets`, which speak about real numbers or use Flocq lemmas
  and list (all or some of) the axioms of Coq's standard library of reals:
  `ClassicalDedekindReals.sig_not_dec`, `ClassicalDedekindReals.sig_forall_dec`,
  `FunctionalExtensionality.functional_extensionality_dep` and
  `Classical_Prop.classic`.
* Libraries used in proofs: Coq's standard library; Flocq for C57/C58 only (its
  lemmas are checked by the kernel and add no axioms of their own).

## What is modelled

All functions of these modules with behaviour beyond returning a field:
`chip.py`, `core_subset.py`, `core_subsets.py`, `frozen_core_subsets.py`,
`data/machine_data_view.py`, `data/machine_data_writer.py`,
`full_wrap_machine.py`, `horizontal_wrap_machine.py`, `vertical_wrap_machine.py`,
`no_wrap_machine.py`, `ignores/*`, `json_machine.py` (with the files as texts, C86),
`link.py`, `link_data_objects/*`, `machine.py`, `machine_factory.py`,
`multicast_routing_entry.py`, `routing_entry.py`, `router.py`,
`spinnaker_triad_geometry.py`, `tags/*`, `version/*` (with the script `vec2mesh_reader.py`), `virtual_machine.py`.
`config_setup.py`, `exceptions.py` and `spinn_machine.cfg` have no behaviour of
their own beyond defaults and class names.

## Not modelled

* `spinn_utilities` (not in the repository): cfg reading is a record of the
  values (their types as the getters give them), `UtilsDataView`'s status is
  part of the surroundings of every call, `OrderedSet` is the list of first
  occurrences. For `CoreSubset.__eq__` (C102), which compares an `OrderedSet` with
  an iterator, it is taken to be `set(self) == set(other)`; its text is that of
  unittests/test_coresubset.py, with any text for an empty one. C101 has its
  iterator both ways, for a dict and for an OrderedDict inside.
* Logging, and the texts of exceptions and warnings other than those of
  machine_repair (C78), validate (C79), version_factory with the constructors of
  the versions (C88, C89), summary_string (C90), the parsers of down items (C91),
  the lookups of SpiNNaker and FPGA links (C92), and the duplicates and invalid
  values of routers, machines and multicast entries (C93), the reader of
  descriptions of machines (C94), routing entries and routes (C96), virtual
  machines (C97), and the data view (C99; the texts that `UtilsDataView` makes from
  the name of the missing thing stand for themselves by that name).
* How floats are written to JSON (descriptions written by `to_json` have none;
  how they are read is modelled), and characters beyond 255 in JSON texts. The `json` module is modelled after its source in CPython. Errors of the
  file system other than a missing file. In C100 the characters of a file arrive
  in their order; a disk that keeps a later block and loses an earlier one is not
  modelled.
* Non-ASCII text (Python's `int()` and `\d` accept other digits); CPython's
  limit of 4300 digits in `int(str)`; Python's recursion limit; memory.
* Widths and heights of 0 or below in `%` where Python raises
  `ZeroDivisionError`: theorems about wrapping machines have positive sizes.
* Routers, chips and links are values except in C62 and C84 (there no router object
  is shared by two chips). Machines held by the data view are values in C49-C52;
  in C87 they, and the map given to `set_v_to_p_map`, are objects that the program
  can change.
* `removed_chips` of `machine_repair` is a collection, not a one-shot iterator.
* Sets of ignored chips, links and cores: iteration order (except the down cores in C97).
* Iterators and generators are read to their end before anything else happens,
  except in C98 (machines and routers) and C101 (collections of cores), where any
  calls may come in between. There the iterators of
  dicts and lists do what CPython's do; the chips of the machine are values, and
  links may be added to the routers of the chips that are in it.
* `RoutingEntry`'s cached repr and lazily decoded route are modelled as the
  value they have (C36_reading_changes_nothing covers the laziness).
* The text of a fractional number of links in `Machine.__str__` (`/ 2`) holds
  for totals below 2^53.
* `sum` of floats adds from left to right (CPython up to 3.11); times given to
  the energy functions are floats.
* Wrong types in general: arguments have the annotated types, except where the
  code checks the type.
* Threads: the library has no locks and makes no promise for concurrent use.
