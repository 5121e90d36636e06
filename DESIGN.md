# Design

Subject: bluedynamics/node, Python sources in /repo/src/node (read as text only).
Proof assistant: Coq 8.16.1 (Rocq) with std++ (finite maps `gmap`, lists).
Everything is in `rocq/theories`; `properties.jsonl` lists the properties,
`MANIFEST.json` maps each property to its theorems, `seeded/LOG.jsonl` records
the experiments with wrong programs.

## Shape of the model

* `M A := st -> res A * st` (`Heap.v`): Python code as state + exception
  functions. The state reached so far is kept when an exception is raised, so
  non-atomicity is visible. Exceptions are values (`exc`, `Py.v`): KeyError with
  its key, ValueError with its message, TypeError, AttributeError,
  NotImplementedError, RuntimeError, and three that are not Python exceptions:
  `Dangling` (reference to a missing heap object, shown unreachable by `wf`),
  `OutOfFuel` (the loop does not return), `Unspecified` (a call into a third
  party library outside its contract, or a case the model leaves open).
* `st` (`Heap.v`): an object heap. One record per node object (class,
  `__name__`, `__parent__`, `_storage`, `_index`, `_uuid`, `_nodespaces`,
  `_notify_suppress`, `_cache`, `_children`, `fallback_key`,
  `allow_non_node_childs`); dict objects and index objects live in heaps of
  their own, so that two nodes sharing one dict (shallow copies, the Reference
  index) is expressible. Further: allocation counter, uuid supply, log of
  lifecycle notifications, fallback counter, table of importable classes.
* A class is a list of behaviors, leftmost outermost, as in `@plumbing(...)`.
  `__setitem__`, `__getitem__`, `__delitem__`, `__iter__`, `__init__`, `detach`,
  `copy`, `deepcopy`, `invalidate` are interpreted by recursion over that list
  (`*_stage` is one behavior's hook, `*_stack` the pipeline, `Model.v`), so every
  combination of the modelled behaviors is a class of the model, not only those
  in base.py. Theorems quantify over classes and restrict them by predicates on
  the behavior list (`tree_class`, `plain`, ...).
* Loops over parents or subtrees use fuel; running out of it is the explicit
  outcome `OutOfFuel`. Termination theorems (C07, C28, C29, C44, C45) show that it
  is not the result, divergence theorems that it is for every fuel.
* Histories (`Reach.v`): `op` is the type of client calls, `run_op` runs one,
  `reach s` are the states any sequence of calls on existing objects leads to,
  raising calls included, from any class table. `grown H D` are the histories
  whose classes satisfy `H` and whose calls satisfy the discipline `D`;
  `reach_json` adds serialize and deserialize. `reach` includes writes to the public
  attribute `node.storage`, past all behaviors (the disciplines exclude them), and
  assignments of `__name__` and `__parent__` by hand (the discipline of C06 and C07
  allows them on nodes held nowhere). Shallow copies (`copy()`) are not
  among the calls of `reach`: they share dicts, and the separation of dicts is the
  invariant the other theorems rest on. C41 treats them by themselves.
* Separate models where no node heap is involved: aliasers (`Aliaser.v`),
  StrCodec (`Codec.v`, `Utf8.v`), ReverseMapping, AttributeAccess,
  instance_property, node_by_path, treerepr (`Utils.v`), event dispatch
  (`Events.v`, an interpreter for programs whose subscribers run programs), the
  tree lock (`Lock.v`, small-step interleaving of threads), JSON serialization
  (`Serializer.v`).

Every Gallina definition of the model cites the file and lines it mirrors and
notes what it simplifies. Specifications live in `Spec*.v`, `Observe.v` and do not
use the model's helpers: they read observations off the heap (`entries_at`,
`name_at`, `parent_at`, `index_at`, ...) and use the ordered dictionary of
`SpecMapping.v`, written with filter/map/append. Property files `P_*.v` contain the
final statements closed with `exact`, an example beside them showing that a
non-trivial reachable state meets the hypotheses, and `Print Assumptions`.

## Per property: what is modelled, how it is proved

| id | theorems in | modelled | how |
|----|----|----------|-----|
| C01 | P_Mapping | mapping calls on classes with the behaviors of BaseNode/OrderedNode | simulation by an abstract ordered dictionary with a policy, induction over the call list |
| C02 | P_Mapping | item set/del on all tree classes | explicit post-state of each stage (SetEff, DelEff), frame |
| C03 | P_Validate | NodeChildValidate over any rest of the pipeline; histories | stage inversion; invariant over `grown` |
| C04 | P_Mapping | Adopt | post-state lemma |
| C05 | P_Mapping | Adopt over an arbitrary `next` | quantified over every inner computation; witnesses for other exceptions |
| C06, C07 | P_Tree | op language on the heap, location walk | invariant (`consistent`, `acyclic`) by induction over histories; witnesses outside the discipline |
| C08 | P_Mapping | Nodify.detach with Lifecycle/Reference stages | post-state lemma (DetachEff) |
| C09 | P_Mapping | update | induction over the data |
| C10, C11 | P_Nodespaces | Nodespaces, Attributes | two-map refinement, invariant over histories |
| C12-C14 | P_Reference | Reference, NodeIndex | forest invariant over `grown creatable tidy`; witnesses |
| C15-C17 | P_Order | Order over odict (`orders`); AttributeError without Order or over a plain dict | list lemmas; witnesses |
| C18-C20 | P_Lifecycle | Lifecycle, AttributesLifecycle | log lemmas per call, characterisation of the silent state over histories; witnesses |
| C21-C23 | P_Cache | Cache, Invalidate, VolatileStorageInvalidate | simulation with the uncached class; witnesses |
| C24, C25 | P_Factories | ChildFactory, FixedChildren | invariants over call sequences |
| C26, C27 | P_Alias | aliasers, Alias | string lemmas; simulation under renamed keys |
| C28, C29 | P_Fallback | Fallback search | inductive specification of the search, measure argument |
| C30-C32, C52 | P_Serializer | NodeEncoder/NodeDecoder and their callbacks | induction over finite trees, rebuilt tree specified by `rebuilt`; witnesses |
| C33 | P_Codec | StrCodec over any character codec; UTF-8 | nested induction |
| C34-C38 | P_Events | Events, EventAttribute, suppress_events, threads | invariants of the interpreter; witnesses |
| C39, C40 | P_Lock | TreeLock, locktree | inductive invariant over all schedules; witness schedule |
| C41-C43 | P_Copy | copy/deepcopy and the hooks of Nodify, UUIDAware | explicit heap isomorphism |
| C44, C47-C50 | P_Utils | treerepr, ReverseMapping, AttributeAccess, instance_property, node_by_path | induction |
| C45, C46 | P_Nodify | acquire, filteredvalues | induction over the parent chain |
| C51 | P_Mapping | AbstractNode | case analysis |
| C53 | P_NodeMapping | mapping calls on Node/AttributedNode (Nodespaces, Reference, Order, Attributes in the pipeline) | simulation as in C01, limited to careful calls; the forest invariant of C12 carries it; witness |
| C54 | P_AnyMapping | mapping calls on every class of the tree behaviors but Reference | simulation as in C01 for an arbitrary behavior list (induction over the list); the composition enters the policy only through NodeChildValidate; witness that the order shows outside the usable keys |
| C55 | P_Cache | Cache over a storage that may have been written to directly | exact effect of the pipeline on cache and entries, induction over the behavior list |
| C56 | P_Update | update from another node, for every two classes of the tree behaviors | items read off the entries, then induction over them with the exact effect of one assignment; witness |
| C57 | P_Attr | GetattrChildren reads and attribute access to attrs; `own` is any set of names normal lookup finds | exact result of one read from the effect of `__getitem__`; write then read from the effects of attrs and of the assignment; witness |
| C58 | P_Handlers | Handlers: creation, assignment, deletion, detach with any program as subscriber | the stages around Lifecycle pass on or raise whatever comes after them, so the call with subscribers is the call without followed by them; witness |
| C59 | P_Plumbing | Plumber: plumber's rules and the table of all declarations of the behaviors | the stacks and endpoints of Model are what the rules make of the table |
| C60 | P_Loops | Loops: an iterator as an object asked step by step, with any calls in between | invariant tying the iterator to the keys of the node over interleavings; keys/values/items of Model equal the step by step loops |
| C61 | P_Threads | Threads: the steps of TreeLock together with the data and what threads know | simulation of every schedule by a machine without locks in which a whole block is one step; with C54 the answers of one dictionary |
| C62 | P_Calls | SerialCall: the decoder with `kw` and any importable callable | the decoder runs the callable first, shown for every callable; refinement of the decoder of C30 |
| C63 | P_Separate | Model, Serializer; `reaches` along all references | a logic of programs that stay in a region closed under references (Region, RegionOps, RegionDeep, RegionSerial), for every function of Model |
| C64 | P_LockCopy | LockCopy (`_treelock` as an attribute), Refs (what deepcopy comes across) | `reached` computes `reaches` (RefsProofs); locks stay on their root in every step |
| C65 | P_Tester | Tester: BaseTester.run and the twenty tests of FullMappingTester, test by test | state of the context between the tests (`world`), one lemma per test, then the whole run; SpecTester says which should fail |
| C66 | P_AttrCopy | AttrCopy: the questions of the copy module (`__deepcopy__`, `__getstate__`, `__setstate__`) put to GetattrChildren; the order of visits is any | effect of one question (C57), first node asked that has GetattrChildren; `reached` for the order |
| C67 | P_Concert | Cache, Invalidate, VolatileStorageInvalidate, calls on several nodes | a logic of programs that leave the dicts of another node alone (`kd`, CacheConcert), with the simulation of C21 per node |
| C68 | P_NodeEvents | NodeEvents: EventAttribute over `attrs`; what is dispatched is a value of the step | simulation by one dictionary (`RE`), from the frame of C67 and the simulation of C21; step by step agreement with Events.set_attr |
| C69 | P_AliasLoops | AliasLoops: Alias' generator (asleep, awake over an iterator of Loops, left) and programs that hold it | by position for undisturbed loops, by the last key for odicts, against the list of names of the keys (`told`) |
| C70 | P_Lasting | all operations of Reach; FixedLoops: the iterator of `_children` | Lasting: a frame logic for one dict, with the operations' dicts shown to be others; loops by position |
| C71 | P_Reads | Reads: lists of questions | ReadProofs: reads compute the same from states with the same views, and keep the views; the lazily made storages are the only difference; ReadCache: the same for views up to what Cache would answer |
| C72 | P_Arrange | SpecArrange: programs of detach and insertions; what may differ after rearranging | ArrangeProofs: one step from C08 and C15, then induction over the keys asked for, over what admits a detach and an insertion: any reachable state without Reference, or a tidy history with Reference and childless children (C12) |

Notes on the extent of each theorem (which classes, which calls) are in
MANIFEST.json. No property of the list is `partial` or `not_applicable`: where the
code does not do what the English sentence says, the sentence names the failure and a
theorem with the suffix `_refuted` (or a C14 witness) proves it on the model.

## Claims about the code that are false, with proofs

| where | what | theorem |
|---|---|---|
| reference.py | the index goes wrong outside the discipline of C12 | C14_* |
| reference.py | a uuid with integer value 0 is filed under None | C13_zero_uuid_refuted |
| order.py | late failure leaves the node inserted; empty node skips the name check; only the name of the reference node matters | C16_late_failure_refuted, C16_unnamed_at_end_refuted, C16_stranger_accepted_refuted |
| order.py + nodespace.py | ordered insertion stores a dunder-named node among the children | C10_ordered_insertion_refuted |
| lifecycle.py | a failing detach silences later events; nodespace keys send nothing; a failing detach may send | C19_failing_detach_silences_refuted, C18_nodespace_silent_refuted, C18_failing_detach_sends_refuted |
| lifecycle.py | attributes without a Lifecycle owner: the value is stored, then the call raises | C20_failed_set_stores_refuted |
| lifecycle.py, common.py | a subscriber raising on an added node: it stays stored; with Adopt before Lifecycle its name and parent are taken back | C58_refusal_undoes_refuted |
| cache.py | invalidate() of a caching node invalidates only the last cached key below | C22_children_survive_refuted |
| cache.py | unhashable keys: other exception than without the cache | C21_unhashable_keys_refuted |
| common.py | a refused assignment to a FixedChildren node that adopts renames the value | C25_adopting_names_refuted |
| common.py | one node under two keys; parent cycles make path run forever | C06_undisciplined_refuted, C06_place_undisciplined_refuted, C07_undisciplined_refuted, C45_cycle_refuted, C45_itself_refuted |
| common.py | deepcopy of a UUIDAware node with a child that is no node raises | C43_value_child_refuted |
| alias.py | SuffixAliaser without suffix; a DictAliaser that is not strict does not invert keys that are aliases of others | C26_empty_suffix, C26_no_suffix_refuted, C26_loose_dict |
| cache.py | a write to `node.storage` is not seen by readers of a cached key | C55_stale_read |
| mapping.py | update from a node leaves its children with another parent than the node that still holds them | C56_no_tree_refuted |
| common.py | on a node with GetattrChildren a missing attribute is a KeyError: hasattr and getattr with a default raise | C57_optional_attribute_refuted |
| fallback.py | a replacement is not tried where the literal child is missing | C28_every_replacement_tried_refuted |
| events.py | subclass attributes leak to the base; unentered/re-entered suppress_events objects; other threads | C34_subclass_attribute_on_base_refuted, C37_*_refuted, C38_*_refuted |
| locking.py | two threads locking a fresh tree are both inside | C39_first_use_races_refuted |
| locking.py | ... and so can lose each other's updates | C61_first_use_refuted |
| mapping.py/reference.py | the shallow copy of a node is not in the index it carries | C41_copy_in_index_refuted |
| serializer.py | strings and dicts that look like markers; what is dropped | C31_*, C32_* |
| nodify.py | a detached child keeps its parent, so it still leads to the old tree | C63_detached_separate_refuted |
| mapping.py, utils.py | deepcopy() replaces UNSET by another instance of its class, which is not UNSET; the copy cannot be serialized | C42_unset_kept_refuted, C30_deep_copy_serializes_refuted |
| locking.py, mapping.py | once a tree was locked none of its nodes can be deepcopied: the RLock on the root cannot be copied (TypeError) | C64_locked_for_good |
| locking.py, common.py | TreeLock fails with KeyError if the root has GetattrChildren (and takes a child `_treelock` for the lock) | C64_getattr_children_refuted |
| testing/fullmapping.py | test_copy renames the context and gives the name back only if copying works: a UUIDAware context keeps the name `nametopcopy` and a parent that is no node | C65_restores_refuted |
| testing/fullmapping.py | the tester reports a mapping that is not empty as failing, and a class can pass though some keys do not show in keys() | C65_used_node_refuted, C65_passing_suffices_refuted |
| common.py, mapping.py | nodes with GetattrChildren cannot be copied, and no node of a tree that has one can be deepcopied (KeyError) | C66_copy_fails, C66_deepcopy_fails, C66_sibling_refuted |
| events.py, attributes.py, utils.py | EventAttribute with storage='attrs' on a class with attribute_access_for_attrs: reading and assigning raise AttributeError, AttributeAccess has no `get` | C68_attribute_access_refuted |
| alias.py | a loop over an aliased node whose last key was deleted ends with a KeyError that has the key of the storage in it, unlike all other KeyErrors of Alias; after RuntimeError or KeyError the loop ends as if it had come to its end | C69_odict_follows, C69_ended |
| cache.py, fallback.py | with Cache left of Fallback a value found by a fallback search is kept on the node that was asked, and searches of other nodes, which found nothing before, find it there | C71_cache_refuted |
| common.py | with a storage left of ChildFactory, `key in node` adds the key to the keys of the node | C71_factory_refuted |
| reference.py, order.py | `root.insertlast(root.detach(k))` of a child with children leaves the grandchildren with the index of the detached tree: they do not find the root by its uuid any more | C72_subtree_refuted |
| serializer.py | a text makes deserialize call anything importable, with arguments the text chooses | C62_calls_anything_refuted |
| serializer.py | factory arguments (`kw`) are not decoded | C62_arguments_decoded_refuted |

## Trusted base

* Coq's kernel, and its bytecode machine for the `vm_compute` examples.
* Axioms: none. Every `Print Assumptions` in the property files (one per
  theorem; output in the build log) says "Closed under the global context". The checker also lists
  seven constants of `Coq.ssr.ssrunder` (`Under_rel` and friends): they
  are sealed module fields of Coq's own library, loaded because std++ loads ssreflect,
  and no theorem depends on them.
* The reading of Python, plumber, odict, uuid, json, threading described here
  and in the comments of the model files. In particular:
  * plumber's pipeline order and endpoint resolution (`finalize` before
    `override` before `default`, leftmost first), stated once in `Plumber.v` with the table
    of what every behavior declares; C59 proves that the functions of `Model.v` follow them;
  * dict and odict as insertion ordered association lists (`Odict.v`); odict's
    `insertbefore/insertafter` of a key that is already present is left `Unspecified`;
  * the iterators of dict (it raises RuntimeError if the number of keys changed) and odict
    (a generator following the keys), as described in `Loops.v`;
  * uuid4 returns a uuid that is not zero and was not seen before (also not as one
    assigned by the client);
  * json.dumps followed by json.loads of the text gives the same JSON tree back;
  * RLock's contract, and that each line of TreeLock is one atomic step; in C61 the work of threads is made of
    atomic steps on the data, as small as one likes, in sequentially consistent memory (the GIL);
  * threading.local gives every thread its own attributes.

## Modelled, and not modelled

Modelled: all of base.py, locking.py, behaviors/storage, mapping, nodespace,
order, reference, alias, cache, fallback, lifecycle, events; behaviors/common
and nodify except as listed below; attributes; serializer; utils except as
listed below. Python 3 only (compat.py with IS_PY2 false).

Not modelled, or simplified:

* Keys are strings, ints, None and unhashable objects; other hashable keys
  (tuples, bytes, floats, True == 1, nodes) are not. Strings are lists of 8-bit characters
  (`String.string`); the code only compares, splits and concatenates them.
* Values: nodes, None, UNSET (and copies of it), booleans, ints, strings, uuids, classes, opaque
  objects, and immutable lists and dicts of these. Mutable list and dict values are
  not heap objects. Opaque objects have an identity and no content; deepcopy() makes others of them (C42_objects).
  Their numbers are chosen by the client and not drawn from the heap, so nothing is said about whether the copy of one
  is an object used elsewhere under the same number.
* `INode.providedBy(x)` holds exactly for node objects; `hasattr` for methods is
  "the class has the behavior". Subclassing of node classes with overridden methods is
  not modelled; class attributes read by the behaviors are fields of the class.
* GetattrChildren: explicit attribute reads are `node_getattr` (C57), and the attributes the copy module
  asks for are in AttrCopy.v (C66). Inside the other behaviors it has no effect in Model.v, although its
  `__getattr__` also turns the AttributeError of a missing `attrs`, `_index` or `_notify_suppress` into a
  KeyError. C41-C43 and C11_refused_without exclude classes with GetattrChildren by hypothesis. The version
  of Python is a parameter of AttrCopy.v where it matters.
* UnicodeAware: `decode` of a text key is the identity in Python 3 (C33), so the
  behavior is the identity.
* AsAttrAccess returns a wrapper without touching the node: the wrapper is C48.
  `attribute_access_for_attrs` (attrs wrapped in AttributeAccess) is not part of `attrs_of`; access
  through the wrapper is `attrs_getattr`/`attrs_setattr` (C57).
* A class record stands for a class providing INode (with Nodify), listed or not.
* Iterators are materialised in Model.v: `__iter__`, `iterkeys`, `itervalues`, `iteritems`,
  `filtereditervalues` are the lists they yield when consumed at once. Loops.v has step by step
  iterators over the storage (C60), and C60 proves that keys, values and items consumed at once are those lists; the
  generator of Alias is in AliasLoops.v (C69); FixedChildren's iterator is in FixedLoops.v (C70);
  ChildFactory's runs over the declared factories, which nothing in the model changes, and is in none. What a dict iterator
  does if keys were exchanged but their number is the same is left `Unspecified`.
* Event attributes (behaviors/events.py) are kept in `__dict__` (C34-C37) or in `attrs` (NodeEvents.v, C68);
  other kinds of storage are not modelled.
* objectEventNotify is a log in Model.v; in Handlers.v it also runs subscribers, which are any
  program (C58). Subscribers called while an item is only read (ChildFactory) are not modelled.
* Serializer: ImportError and AttributeError of `resolve` are not distinguished; factory
  arguments (`kw`) of node classes other than `name` and the uuid forms with braces or urn: prefix are left `Unspecified`/refused;
  recursion deeper than the fuel stands for RecursionError; floats, tuples and bytes are not values.
* Threads (C61): which nodes belong to the locked tree is fixed by the discipline (nodes locked stay in the
  tree); a node that joins a tree while threads hold other locks is only covered by C39_one_holder.
* StrCodec: subclasses of list, tuple and dict are not modelled.
* `__repr__`/`__str__` (they print an address), `printtree`, the `debug`
  decorator, logging, `node.parts`, and of `node.testing` `create_tree`, `profiling`,
  `combined`, `wherefrom` and `direct_error` are not modelled. In the tester, formatted parts of messages and the
  sorting before checks are left out (C65: no test depends on the order).

## Experiments with wrong programs

`seeded/LOG.jsonl` has one line per edited model. Proofs run against the edited model;
each failing proof is blanked and the run goes on. A failing script does not by itself
show that the statement became false (m03 changes one message, which only C01, C25 and C27
prescribe, yet scripts under most properties fail), so the
log keeps apart: `closed_failed`, statements without variables that computation
now refutes; `scripts_failed`, general lemmas whose script stops working;
`theorems_resting_on_them`, property theorems that depend on a failed lemma and were not
re-proved, which is an upper bound and not a list of false theorems. `verdict` says
which closed statement of the targeted property fails, or why its theorem is false of the
edited model when that was judged by reading.
