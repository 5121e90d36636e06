{
"C01": {
"note": "fresh nodes and every reachable content; classes with the behaviors of BaseNode or OrderedNode"
},
"C02": {
"note": "success and refusal, for every combination of the tree behaviors"
},
"C04": {
"note": "every combination of the tree behaviors with Adopt"
},
"C05": {
"note": "for any computation below Adopt; the other exceptions are shown to stick"
},
"C08": {
"note": "presence, absence, and effect; that detaching from a Reference node succeeds is in C12"
},
"C09": {
"note": "every class"
},
"C51": {
"note": "every call"
},
"C26": {
"note": "inversion both ways, domain, KeyError; the empty suffix and the loose dictionary are shown not to invert"
},
"C27": {
"note": "simulation by an ordered dictionary under renamed keys, for Alias anywhere among plain behaviors"
},
"C33": {
"note": "pure model of StrCodec over arbitrary nested data; UTF-8 encoder and decoder included"
},
"C44": {
"note": "printed text, line count, sort order and canonicity for finite trees of tree-behavior classes"
},
"C47": {
"note": "any context acting like an entry list, and nodes"
},
"C48": {
"note": "every class of the tree behaviors"
},
"C49": {
"note": "interleaved reads of several properties on several objects"
},
"C50": {
"note": "list paths, all strings, missing keys"
},
"C34": {
"note": "bind/unbind/dispatch for all reachable states; dispatch exact under subscribers that leave the event's own list alone, arbitrary otherwise; witness that a subclass' event attribute becomes declared on its base"
},
"C35": {
"note": "the undisturbed case is C34_dispatch; the two disturbed cases hold for every list"
},
"C36": {
"note": "set, delete, frame and origin of decorator calls"
},
"C37": {
"note": "scoping, delivery inside nested blocks; the claims about objects created but not entered, or entered twice, are refuted by general witnesses"
},
"C38": {
"note": "the claim that they work in every thread is refuted: proved to fail in every other thread in every history; the fallback part is with C28/C29"
},
"C39": {
"note": "every schedule of any number of threads, programs with nested blocks, exceptions and re-rooting; the race on first use is a proved witness for every such configuration"
},
"C40": {
"note": "release step proved for every reachable configuration and every way of leaving"
},
"C21": {
"note": "Cache transparent for every history over hashable keys, for any class of mapping behaviors with Cache; for unhashable keys the exception differs (refuted with witnesses)."
},
"C22": {
"note": "Exact effect of invalidate() for every cache and storage content; the claim that every child is invalidated is refuted generally."
},
"C23": {
"note": "VolatileStorageInvalidate for any class with storage; Invalidate for all tree classes."
},
"C24": {
"note": "Classes of mapping behaviors with exactly one ChildFactory above a dict storage. Access to a declared key succeeds if the declared class has no FixedChildren (whose own construction may fail); C24_first_access_outcome covers the rest. Children created earlier and then deleted are made anew on the next access. The key order clause needs ChildFactory before the storage (factory_first)."
},
"C25": {
"note": "Construction and immutability are proved; the name clause is refuted for classes that also adopt (C25_adopting_names_refuted): a refused assignment still renames the value passed. Without Adopt nothing at all changes (C25_immutable)."
},
"C15": {
"note": "tree classes (including Nodespaces, Reference, Lifecycle); inserting under a name that is already a key is left to odict and not modelled"
},
"C16": {
"note": "the three refusals proved; violations are witness theorems: late failure leaves the node in the entries, insertfirst/insertlast on an empty node skip the name check, only the name of the reference node is looked at"
},
"C17": {
"note": "every storage class"
},
"C06": {
"note": "Proved for every history, raising calls included, over classes of the tree behaviors with Adopt (adopting), of all modelled calls, invalidate and deepcopy included; deepcopy while no GetattrChildren node exists. The failure without the discipline is a witness."
},
"C07": {
"note": "For the histories of C06; path, root, and lookup of the remaining path both ways; the endless walk of an undisciplined history is a witness for every fuel."
},
"C10": {
"note": "Proved for all classes of the tree behaviors and all histories of calls except ordered insertion; deepcopy while no GetattrChildren node exists. C10_ordered_insertion_refuted shows that ordered insertion of a dunder-named node makes it iterable."
},
"C11": {
"note": "Stability, equality with the nodespace and isolation of the children over all plain histories; name and parent over careful histories of adopting classes (the same discipline as C06)."
},
"C03": {
"note": "The refusal is proved for every plumbing with NodeChildValidate outermost in every state. The history theorem covers the classes built from the tree behaviors, any number of nodes, and all modelled calls except switching allow_non_node_childs on for the node itself; deepcopy while no GetattrChildren node exists."
},
"C28": {
"note": "fallback lookups in every tree of the tree behaviors and Fallback (consistent, acyclic): own value first, sound and complete outcome of the search, nearest fallback first, missing fallback key; refuted: replacements where the literal child is missing are not tried"
},
"C29": {
"note": "termination in trees within (n+2)^2 steps; counter restored for every class, state and outcome; nested lookups never search"
},
"C18": {
"note": "Classes of tree behaviours with one Lifecycle; keys that go to the nodespaces are excluded (witness that LifecycleNode is silent there); a failing detach can send when Reference is plumbed before Lifecycle (witness)."
},
"C19": {
"note": "The claim is false (witness); the suppressed state is characterised exactly over all histories for a Lifecycle not wrapped by a Reference."
},
"C20": {
"note": "Attribute classes of plain behaviours around AttributesLifecycle; without a Lifecycle owner every call fails, after the value was stored (witness)."
},
"C12": {
"note": "All histories of the modelled calls, raising ones included, in which nodes are assigned with care (childless, free-standing, uuid new, under a string key that holds no node, an unused one for ordered insertion; by item assignment, setdefault, update with different keys and uuids, insertbefore/after/first/last), other values replace no node, nodes are deleted, detached, invalidated (plain Invalidate), deepcopied, given uuids; for every listed node. C12_deepcopy: the copies are found from the copy, the originals from the original."
},
"C13": {
"note": "Every reachable state, node and uuid; uuid with integer 0 is filed under None (C13_zero_uuid_refuted)."
},
"C14": {
"note": "Witness histories on the full model."
},
"C45": {
"note": "Exact characterisation of acquire for every reachable state, parent cycles included. The predicate stands for interface.providedBy / isinstance and may look at the node object only."
},
"C46": {
"note": "filtereditervalues is modelled by the list it yields when consumed at once."
},
"C41": {
"note": "Copies of classes with GetattrChildren are excluded: copying probes the instance for __setstate__ through __getattr__, which raises KeyError there. The call-by-call theorems are for classes of storage, validation, adoption and other plain behaviors; the entries theorem is for all classes. The copy of a node with an index is not in the index (refuted theorem)."
},
"C42": {
"note": "Every object graph of the model. Opaque objects and UNSET are replaced by other objects (C42_objects, C42_unset_kept_refuted). Classes with GetattrChildren are excluded (see C41)."
},
"C43": {
"note": "The recursive case is for trees of nodes without cycles and without Reference; a child that is no node makes deepcopy raise AttributeError (refuted theorem)."
},
"C30": {
"note": "Trees whose classes resolve by name and whose attributes are plain values (C31) or trees of nodes again (the class of the attributes node then has Adopt and not Reference, as NodeAttributes). The JSON text itself is modelled as the tree it denotes (json module trusted)."
},
"C31": {
"note": "Both directions: plain values survive, and only they do (among values without nodes or foreign objects). Floats, tuples and bytes are not modelled as values."
},
"C32": {
"note": "Full format of simple mode is json_tree true incl; see also C30_serialize."
},
"C52": {
"note": "For every registry history and any environment; isinstance and providedBy are a parameter."
},
"C53": {
"note": "C53_ordered_mapping from any state a tidy history leads to, C53_fresh_node_is_ordered_mapping for a new node; careful calls are defined in SpecNode.careful_call, state by state. C53_careless_refuted: a node assigned twice cannot be deleted twice."
},
"C54": {
"note": "All classes of the tree behaviors without Reference (C53 covers Node, which has it). UUIDAware classes are covered in any state, but their constructor only in C43. C54_order_shows_refuted: outside the usable keys the exception depends on the order."
},
"C55": {
"note": "cache and storage arbitrary; Cache anywhere among storage, validation, adoption and passive behaviors"
},
"C56": {
"note": "update_from is Model.update applied to the items of the other node. C56_reach puts the state afterwards back into the histories of the other theorems. The updated node has no Reference (with it the uuid index decides, C12-C14)."
},
"C57": {
"note": "own is an arbitrary set of names: which names normal lookup finds is Python's business. Writes through GetattrChildren are plain Python attributes and not modelled."
},
"C58": {
"note": "Subscribers are one function from the event to any program; nested notifications are part of that program. In C58_adopted the subscriber must not delete the object of the child."
},
"C59": {
"note": "The rules of plumber and the table of declarations are trusted to be read correctly; what each hook and body does is the model's."
},
"C60": {
"note": "Iterators of dict and odict are modelled after CPython and odict; the generator of Alias is C69; the static iterators of ChildFactory and FixedChildren are not included."
},
"C61": {
"note": "TreeLock steps with arbitrary data and code; first use of a lock refuted by a lost update."
},
"C62": {
"note": "the unsafe reading and the undecoded arguments are findings (refuted expectations); agreement with the decoder of C30-C32 proved for every text that decoder settles"
},
"C63": {
"note": "nodes inside of lists and dicts that are held as values are assumed to exist (sound); reach guarantees it of all other references"
},
"C64": {
"note": "that no class of the library has an attribute _treelock of its own, and that copy.deepcopy of an RLock raises TypeError, are read off the code and Python"
},
"C65": {
"note": "Contexts and child classes made of storage, adoption, validation and passive behaviors (no Nodespaces, Reference, Alias); Node and OrderableNode by closed computation (C65_shipped)."
},
"C66": {
"note": "Nodes whose classes are made of the tree behaviors; the contents of the copy module are stated in AttrCopy.v."
},
"C67": {
"note": "Classes of mapping behaviors with or without Cache and with an invalidator (as in C21); caches up to date at the start."
},
"C68": {
"note": "The attributes node is of mapping behaviors (with or without Cache; no AttributesLifecycle); what a dispatch does is C34-C37."
},
"C69": {
"note": "One Alias before the iterator of a storage; C69_odict_follows needs an aliaser that gives no name twice."
},
"C70": {
"note": "The children are those of C25. The shallow copy of copy.py shares _children with the original (C42) and is not an operation of these histories; assigning to the private _children is not modelled."
},
"C71": {
"note": "No ChildFactory, and no Fallback right of Cache in any class of the tree; without these conditions it is refuted by C71_cache_refuted and C71_factory_refuted (findings). C71_reads: trees without Cache, nothing that can be seen changes (names, parents, classes, entries, nodespaces, cached and fixed children, uuids, indexes, the event log). C71_caching: with Cache, only the caches change."
},
"C72": {
"note": "with Reference for children without children; for subtrees the lookup by uuid fails afterwards (C72_subtree_refuted, C14)"
}
}