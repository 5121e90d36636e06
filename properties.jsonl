{"id": "C01", "title": "A node is an ordered mapping", "statement": "For BaseNode and OrderedNode, every sequence of mapping calls (item set/get/delete, get, in, keys, values, items, len, pop, popitem, setdefault, update, clear) returns exactly what a plain insertion-ordered dictionary holding the same entries would return (overwriting keeps a key's position, popitem takes the last entry, a missing key raises KeyError carrying that key, unhashable keys raise TypeError), and leaves the node holding exactly the entries that dictionary would hold. Values which are neither nodes nor allowed are refused with ValueError and change nothing.", "quantifier": "every initial content, every finite sequence of mapping calls, every key and value, both node classes", "why_tests_cant": "tests run a fixed script of about twenty calls on two keys; the claim is about every history, including failing calls in the middle of a history", "anchors": ["src/node/behaviors/mapping.py: ReadMapping, EnumerableMapping, ExtendedWriteMapping", "src/node/behaviors/storage.py: Storage", "src/node/behaviors/common.py: Adopt, NodeChildValidate", "src/node/base.py: BaseNode, OrderedNode"]}
{"id": "C02", "title": "Item assignment and deletion touch only what they name", "statement": "Successfully setting or deleting an item on a node changes the entries of that node at that key only: every other entry of that node keeps its value and relative order, every other node keeps its entries, and apart from the adopted child no node's name or parent changes.", "quantifier": "every state in which nodes do not share storage, every node, key and value", "why_tests_cant": "a frame condition quantifies over all the objects that are NOT mentioned; a test can only look at a few of them", "anchors": ["src/node/behaviors/storage.py: Storage", "src/node/behaviors/common.py: Adopt", "src/node/base.py"]}
{"id": "C03", "title": "Child validation", "statement": "On a node with NodeChildValidate and allow_non_node_childs false, setting an item to a class or to anything that is not a node raises ValueError and changes nothing at all; consequently, over every history of calls through the mapping and ordering API starting from an empty node, every value the node holds is a node.", "quantifier": "every history of API calls, every key and value, every plumbing whose outermost set hook is NodeChildValidate", "why_tests_cant": "the invariant is over all histories and all entry points (update, setdefault, insertbefore, ...)", "anchors": ["src/node/behaviors/common.py: NodeChildValidate"]}
{"id": "C04", "title": "Adoption", "statement": "After a successful node[key] = child on a node with Adopt, child.name == key, child.parent is node, and node[key] is that same child object.", "quantifier": "every state, node, key and child; for BaseNode, OrderedNode and Node/AttributedNode plumbing", "why_tests_cant": "holds for all states and keys, including re-adoption of a child that already has another parent", "anchors": ["src/node/behaviors/common.py: Adopt.__setitem__", "src/node/base.py"]}
{"id": "C05", "title": "A refused child keeps its name and parent", "statement": "If node[key] = child fails with AttributeError, KeyError or ValueError anywhere below Adopt, the child's name and parent are what they were before the call. For any other exception type (an unhashable key's TypeError, a read-only node's NotImplementedError) the child is left pointing at the node that refused it; the boundary is exactly this exception list.", "quantifier": "every behaviour stack below Adopt, every state, key and child, every raised exception", "why_tests_cant": "quantifies over every inner behaviour stack and failure point, not just the one failing mock in the tests", "anchors": ["src/node/behaviors/common.py: Adopt.__setitem__ lines 27-45"]}
{"id": "C06", "title": "Containment is consistent", "statement": "Over every history of node creation, item assignment, deletion, detaching and direct assignment of __name__ and __parent__ in which a node is only ever assigned or given a name and parent by hand while it is not held anywhere and not on the parent chain of the node it is put below, every held child has name equal to its key and parent identical to its holder, and no node is held twice. Without that discipline it fails: assigning one node under two keys leaves one entry whose child reports the other key as name.", "quantifier": "every history of create/set/delete/detach/pop calls and direct assignments of __name__ and __parent__ over any number of nodes obeying the stated discipline", "why_tests_cant": "an invariant over unbounded histories and object graphs", "anchors": ["src/node/behaviors/common.py: Adopt", "src/node/behaviors/nodify.py: Nodify.detach", "src/node/behaviors/mapping.py"]}
{"id": "C07", "title": "Path and root describe the position in the tree", "statement": "In every state reachable as in C06, reading path and root always terminates; the path of the node held at key k by n is the path of n followed by k; its root is the root of n; and looking up the remaining path from an ancestor leads back to the node itself. Without the discipline reading path can run forever: detach a child and assign its former parent below it.", "quantifier": "every reachable state, every node, every depth", "why_tests_cant": "termination and position of arbitrarily deep trees over arbitrary histories", "anchors": ["src/node/behaviors/nodify.py: Nodify.path, Nodify.root", "src/node/utils.py: LocationIterator, node_by_path"]}
{"id": "C08", "title": "Detach returns the child and removes exactly it", "statement": "detach(key) returns the object that node[key] returned before and afterwards behaves as deletion of key; a missing key raises KeyError(key) and changes no entries. The detached node keeps its old name and parent (so its path and root still go through the old parent) until it is assigned again.", "quantifier": "every state, node and key", "why_tests_cant": "quantifies over all states; the stale parent is nowhere asserted by the tests", "anchors": ["src/node/behaviors/nodify.py: Nodify.detach", "src/node/behaviors/mapping.py: pop, popitem"]}
{"id": "C09", "title": "Bulk update applies a prefix", "statement": "update(data) assigns the pairs in order; if assigning some pair raises, the exception propagates, all earlier pairs have been applied exactly as individual assignments would have, and no later pair is. More than one positional argument raises TypeError and changes nothing.", "quantifier": "every data list, every failing position, every node class modelled", "why_tests_cant": "the failure point ranges over all positions and the data over all lists", "anchors": ["src/node/behaviors/mapping.py: ExtendedWriteMapping.update"]}
{"id": "C10", "title": "Nodespaces are isolated from children", "statement": "On a node with Nodespaces, setting, reading or deleting a key that starts and ends with two underscores acts only on the nodespaces and never changes the ordinary children, and operations on any other key never change the nodespaces; such keys set through the item API never show up when iterating; node['__children__'] is the node itself until replaced or deleted.", "quantifier": "every state, every key (including '__' and '___'), every history of item operations on a Node", "why_tests_cant": "separation over all histories and all keys", "anchors": ["src/node/behaviors/nodespace.py: Nodespaces"]}
{"id": "C11", "title": "attrs is one stable nodespace", "statement": "node.attrs creates the attributes object once: every later access returns the same object as long as the '__attrs__' nodespace is not reassigned or deleted; it equals node['__attrs__'], its name is '__attrs__', its parent is the node, and neither reading nor writing attributes changes the node's children. A node without the behavior Attributes, or without Nodespaces, has no attrs: AttributeError, and nothing is created.", "quantifier": "every node with Nodespaces and Attributes, every history of attrs accesses and item operations", "why_tests_cant": "identity must survive every history", "anchors": ["src/node/behaviors/attributes.py: Attributes.attrs, NodeAttributes", "src/node/behaviors/nodespace.py"]}
{"id": "C12", "title": "The reference index is exactly the tree", "statement": "Over every history which creates nodes, assigns childless free-standing nodes to keys that hold no node (by item assignment, setdefault, update or ordered insertion), deletes, detaches and changes uuids, for every node of every tree: the index contains exactly the nodes of that tree, each under its uuid, all nodes of the tree share one index, and node(uuid) finds a node anywhere in the tree from anywhere in the tree; deleting removes the whole subtree from the index without raising; a detached subtree gets an index of its own with exactly its nodes.", "quantifier": "every finite history of these operations, every tree shape", "why_tests_cant": "the tests look at one tree of four nodes; the claim is an invariant over all histories and shapes", "anchors": ["src/node/behaviors/reference.py: Reference", "src/node/base.py: Node, AttributedNode"]}
{"id": "C13", "title": "uuid assignment keeps the index keyed correctly", "statement": "Assigning a uuid used by another node of the same tree raises ValueError and changes nothing; otherwise the node is found under the new uuid and no longer under the old one, and all other index entries are unchanged.", "quantifier": "every state, node and uuid", "why_tests_cant": "quantifies over all index contents", "anchors": ["src/node/behaviors/reference.py: Reference.uuid"]}
{"id": "C14", "title": "Where the reference index breaks", "statement": "Outside the discipline of C12 the index is wrong, with concrete histories: assigning a node that has children leaves its descendants on their old index (a node added below them later is not found from the root and deleting the subtree then raises KeyError); overwriting a key leaves the replaced node in the index; a childless node can be assigned twice in the same tree; re-assigning a node removed with del imports the whole index of its former tree.", "quantifier": "existence of histories (witnesses), each checked on the full model", "why_tests_cant": "the existing tests stop right before each of these states", "anchors": ["src/node/behaviors/reference.py: Reference.__setitem__ lines 39-51", "src/node/behaviors/reference.py: Reference.__delitem__"]}
{"id": "C15", "title": "Ordered insertion puts the node where asked", "statement": "On a class with Order over an odict, insertbefore/insertafter(new, ref) with a named new node whose name is not yet a key and a ref held by the node makes new the immediate predecessor/successor of ref, keeps the relative order and values of all other entries, and adopts new; insertfirst/insertlast put it first/last.", "quantifier": "every content, every position of ref, every new name, with and without Reference", "why_tests_cant": "all lengths and positions", "anchors": ["src/node/behaviors/order.py: Order"]}
{"id": "C16", "title": "Refused ordered insertion", "statement": "An unnamed new node, a ref that is not held, or (with Reference) a node already in the tree raises ValueError, ValueError, KeyError respectively and changes neither entries, names, parents nor index. A failure detected later does not: when the new node's subtree shares a uuid with the tree, insertbefore raises ValueError but the node stays in the entries; insertfirst/insertlast on an empty node skip the name check. Where the storage is a plain dict an admitted node is refused with AttributeError and nothing changes.", "quantifier": "every state and arguments; witnesses for the violations", "why_tests_cant": "the tests check the exception but never the state afterwards", "anchors": ["src/node/behaviors/order.py: Order._validateinsertion, insertbefore, insertafter, insertfirst, insertlast"]}
{"id": "C17", "title": "swap exchanges two positions", "statement": "swap(a, b) exchanges exactly the positions of the two keys and nothing else; performing it twice restores the order; an absent key raises KeyError and equal keys raise ValueError, both changing nothing; so does AttributeError where the class has no Order or keeps its children in a plain dict.", "quantifier": "every content, every pair of keys", "why_tests_cant": "all lengths, all pairs of positions (adjacent, first, last)", "anchors": ["src/node/behaviors/order.py: Order.swap"]}
{"id": "C18", "title": "One lifecycle event per change", "statement": "On a node with Lifecycle and notification not suppressed: creating a node emits exactly one created event; a successful item assignment emits exactly one added event naming child, new parent and key; a successful deletion exactly one removed event naming the deleted child, parent and key; a successful detach exactly one detached event and no removed event; failing operations emit nothing.", "quantifier": "every history of item operations, every outcome", "why_tests_cant": "event counts over all histories including failing calls", "anchors": ["src/node/behaviors/lifecycle.py: Lifecycle"]}
{"id": "C19", "title": "A failing detach must not silence later events", "statement": "After any sequence of calls, later successful changes still emit their events. This is false: detach of a missing key raises KeyError and leaves notification suppressed, so every following add and delete on that node is silent until the next successful detach.", "quantifier": "every history; witness plus the exact characterisation of the suppressed state", "why_tests_cant": "needs a failing call followed by a successful one", "anchors": ["src/node/behaviors/lifecycle.py: Lifecycle.detach lines 51-58"]}
{"id": "C20", "title": "Attribute changes emit modified events", "statement": "With AttributesLifecycle every successful attribute assignment or deletion emits exactly one modified event for the owning node unless the owner suppresses notification; failing ones emit none.", "quantifier": "every state, attribute key and value", "why_tests_cant": "all states and outcomes", "anchors": ["src/node/behaviors/lifecycle.py: AttributesLifecycle", "src/node/behaviors/attributes.py"]}
{"id": "C21", "title": "The cache is transparent", "statement": "For a node with Cache over a storage changed only through that node, every history of item set/get/delete/contains/iterate/invalidate(key) calls returns the same results and exceptions as the same node without Cache.", "quantifier": "every history, every key and value", "why_tests_cant": "coherence of two dictionaries over all histories", "anchors": ["src/node/behaviors/cache.py: Cache, Invalidate, VolatileStorageInvalidate"]}
{"id": "C22", "title": "invalidate() drops everything", "statement": "invalidate() without key on a caching node empties the cache and then invalidates every child of the underlying node. The cache is always emptied, but the second half is false whenever something was cached: the loop variable overwrites the argument, so only the last cached key is invalidated underneath (and a cached key missing underneath raises KeyError).", "quantifier": "every cache content and storage content", "why_tests_cant": "the test happens to run it with exactly one remaining child", "anchors": ["src/node/behaviors/cache.py: Cache.invalidate lines 80-91"]}
{"id": "C23", "title": "Invalidation", "statement": "Invalidate: invalidate(key) deletes that child (KeyError if absent), invalidate() deletes all children. VolatileStorageInvalidate: invalidate(key) removes the entry from storage, KeyError exactly if key is not a key of the node; invalidate() empties the storage; the node's own item hooks are bypassed.", "quantifier": "every state and key", "why_tests_cant": "all contents", "anchors": ["src/node/behaviors/cache.py: Invalidate, VolatileStorageInvalidate"]}
{"id": "C24", "title": "Child factories run once per key", "statement": "With ChildFactory, iterating yields exactly the factory keys in declared order whatever has been created; node[key] for a factory key always succeeds, creates the child the first time, and every later access returns that same object until it is deleted or invalidated; a key that is neither stored nor a factory raises KeyError.", "quantifier": "every history of gets, sets and deletes, every factory table", "why_tests_cant": "laziness and identity over all histories", "anchors": ["src/node/behaviors/common.py: ChildFactory"]}
{"id": "C25", "title": "Fixed children are immutable", "statement": "With FixedChildren no history of mapping calls changes the children or their order: every attempt to set or delete raises NotImplementedError, reads keep returning the objects created at construction, each having its key as name and the node as parent.", "quantifier": "every history of calls, every factory table", "why_tests_cant": "immutability over all histories and all derived mutators", "anchors": ["src/node/behaviors/common.py: FixedChildren"]}
{"id": "C26", "title": "Aliasers invert", "statement": "For PrefixAliaser, SuffixAliaser with a non-empty suffix, chains of them, and strict DictAliaser with distinct real keys: unalias(alias(k)) == k, and whenever unalias(a) succeeds alias(unalias(a)) == a; unalias raises KeyError exactly for strings not of the aliased form. With an empty suffix SuffixAliaser.unalias returns '' for every key, so PrefixSuffixAliaser without suffix is broken for every key. Non-strict DictAliaser does not invert when a key collides with an alias.", "quantifier": "every prefix, suffix, dictionary, chain length and key", "why_tests_cant": "string laws over all strings; the empty suffix is untested", "anchors": ["src/node/behaviors/alias.py: DictAliaser, PrefixAliaser, SuffixAliaser, AliaserChain, PrefixSuffixAliaser"]}
{"id": "C27", "title": "An aliased node is the same mapping under renamed keys", "statement": "With an aliaser that inverts, item set/get/delete under the alias of k act on the underlying entry k; iteration yields exactly the aliases of the underlying keys in order (a strict DictAliaser skips keys it does not list); a missing entry raises KeyError carrying the alias that was asked for, not the internal key.", "quantifier": "every state, aliaser and key", "why_tests_cant": "all aliasers and contents", "anchors": ["src/node/behaviors/alias.py: Alias"]}
{"id": "C28", "title": "Fallback lookup", "statement": "node[key] with Fallback returns the node's own value whenever it has one. Otherwise a value is returned only if it is found at the requested path with one or more ancestors' components replaced by that ancestor's parent's fallback_key (a chain of such replacements); if nothing is found the original KeyError for the requested key is raised, except when a declared fallback_key does not exist on its node, in which case KeyError names the fallback_key and the search stops.", "quantifier": "every tree, every placement of fallback keys, every requested path", "why_tests_cant": "all tree shapes and fallback placements", "anchors": ["src/node/behaviors/fallback.py: Fallback, _to_root, _to_leaf"]}
{"id": "C29", "title": "Fallback lookup terminates and is re-entrant", "statement": "On every finite tree with well-formed parents the fallback search terminates, visiting each node as a fallback origin at most once, and leaves the processing counter as it found it on every outcome; nested lookups made during the search never start a search of their own.", "quantifier": "every finite tree, every outcome", "why_tests_cant": "termination over all trees", "anchors": ["src/node/behaviors/fallback.py: fallback_processing, _to_root, _to_leaf"]}
{"id": "C30", "title": "JSON round trip of node trees", "statement": "deserialize(serialize(tree)) rebuilds a tree with the same classes, names, child order and attributes, for every tree of nodes whose classes resolve by their dotted name and whose attributes are representable values (see C31) or such trees again; attributes that are nodes come back as children of the attributes node, at every depth; given root=parent the result is assigned into parent under its name.", "quantifier": "every tree shape, depth, name and attribute table", "why_tests_cant": "round trip over all trees", "anchors": ["src/node/serializer.py: NodeEncoder, NodeDecoder, serialize_node, deserialize_node, serialize_node_attributes, deserialize_node_attributes"]}
{"id": "C31", "title": "JSON round trip of values", "statement": "None, booleans, integers, strings, UNSET, UUIDs, classes/functions and lists of them decode to themselves, provided no string is '<UNSET>' or starts with '<UUID>:' and dictionaries have neither a '__ob__' nor a '__node__' key and contain no UNSET/UUID/object inside. Outside of that the round trip is lossy: the string '<UNSET>' comes back as UNSET, UNSET inside a dict comes back as a string.", "quantifier": "every representable value, any nesting; witnesses for the collisions", "why_tests_cant": "all nestings; collisions are untested", "anchors": ["src/node/serializer.py: NodeEncoder.default, NodeDecoder.decode"]}
{"id": "C32", "title": "What serialization silently drops", "statement": "Children that are not nodes are written to the JSON but lost on deserialization; uuids of nodes are not carried over; in simple mode no class information and no '__node__' wrapper is written, and with include_class only the class name is added.", "quantifier": "every tree; witnesses", "why_tests_cant": "no test serializes non-node children", "anchors": ["src/node/serializer.py: serialize_node, deserialize_node, NodeEncoder.default"]}
{"id": "C33", "title": "StrCodec", "statement": "For every nested structure of strings, bytes, lists, tuples, dicts, nodes and other objects and every codec that decodes what it encodes: if encode(x) succeeds then decode(encode(x)) == decode(x), also when dict keys collide, and encode(encode(x)) == encode(x). Every leaf of the result is a leaf of the argument converted; objects of other types are returned unchanged; bytes that are not valid in the encoding are left as they are in soft mode. Where no dict key contains a node, decode fails exactly in strict mode with invalid bytes somewhere, with UnicodeDecodeError. UTF-8 is such a codec.", "quantifier": "every nested structure, every codec satisfying decode(encode s) = s", "why_tests_cant": "all nestings", "anchors": ["src/node/utils.py: StrCodec"]}
{"id": "C34", "title": "Event subscription and dispatch", "statement": "dispatch(e, args) calls each subscriber bound to e exactly once, in order of first binding, with exactly these arguments, and no other; bind of an event neither registered on the instance nor declared on the class raises UnknownEvent; binding twice has no further effect; unbind with event and/or subscriber removes exactly the matching pairs.", "quantifier": "every history of register/bind/unbind/dispatch", "why_tests_cant": "all histories", "anchors": ["src/node/behaviors/events.py: Events"]}
{"id": "C35", "title": "Subscribers that change subscriptions while being called", "statement": "If subscribers do not change the subscriber list of the event being dispatched, each is called exactly once. A subscriber that unbinds itself during dispatch causes the following subscriber to be skipped; a subscriber bound during dispatch is called in the same dispatch.", "quantifier": "every subscriber list and every subscriber behaviour over the subscription API", "why_tests_cant": "needs re-entrant subscribers", "anchors": ["src/node/behaviors/events.py: Events.dispatch line 307"]}
{"id": "C36", "title": "Event attributes", "statement": "Assigning an event attribute stores the value and dispatches exactly if the value changed (or always_dispatch): first the decorator subscribers with the object, then the bound ones; reading returns the last assigned value or the default; deleting restores the default and dispatches UNSET to the bound subscribers only. Decorator subscribers of one attribute never receive another dispatch.", "quantifier": "every history of sets, deletes, binds and dispatches", "why_tests_cant": "hidden thread-local handover must be empty after every operation in every history", "anchors": ["src/node/behaviors/events.py: EventAttribute, _subscribers"]}
{"id": "C37", "title": "suppress_events is scoped", "statement": "Inside any nesting of suppress_events blocks an event is delivered iff no enclosing block names it or suppresses all; after leaving a block, normally or by exception, suppression is exactly as before it. A suppress_events object that is created but never entered, however, suppresses its event inside any later unrelated block.", "quantifier": "every nesting depth, every set of names, every exit path", "why_tests_cant": "all nestings and exception points", "anchors": ["src/node/behaviors/events.py: suppress_events, Events.dispatch"]}
{"id": "C38", "title": "Thread-local state exists only in the importing thread", "statement": "dispatch, suppress_events and fallback lookup work in every thread. False: their thread-local fields are initialised only in the thread that imported the module; in any other thread dispatch, entering suppress_events and a fallback search raise AttributeError before calling any subscriber.", "quantifier": "every thread other than the importing one, every dispatcher state", "why_tests_cant": "all tests run in the importing thread", "anchors": ["src/node/behaviors/events.py lines 64-66, 91-92", "src/node/behaviors/fallback.py lines 13-15"]}
{"id": "C39", "title": "The tree lock excludes", "statement": "Once the root carries its lock, then under every interleaving of any number of threads locking any nodes of that tree, at most one thread is inside the locked region at a time. On a tree never locked before, two threads can both be inside: creation of the lock is check-then-set.", "quantifier": "every schedule of any number of threads", "why_tests_cant": "all interleavings; the failing one needs a particular schedule", "anchors": ["src/node/locking.py: TreeLock"]}
{"id": "C40", "title": "Lock release on every path", "statement": "A locktree method and a with TreeLock block release the lock exactly as often as they acquired it, whether the body returns or raises, for every nesting; the exception of the body propagates; a body that re-roots the tree does not change which lock is released.", "quantifier": "every body, every nesting, every outcome", "why_tests_cant": "all nestings and outcomes", "anchors": ["src/node/locking.py: TreeLock, locktree"]}
{"id": "C41", "title": "Shallow copies", "statement": "copy() returns a new node with the same name, parent and children. If the node's storage has been touched before, the copy and the original share it: setting or deleting on one is visible on the other; if it has not been touched, they are independent.", "quantifier": "every state, every subsequent operation", "why_tests_cant": "tests only read from the copy", "anchors": ["src/node/behaviors/mapping.py: ClonableMapping.copy", "src/node/behaviors/nodify.py: Nodify.copy", "src/node/behaviors/storage.py", "src/node/utils.py: instance_property"]}
{"id": "C42", "title": "Deep copies", "statement": "deepcopy() yields a structure isomorphic to the original (classes, names, keys, order, values, index), with all node objects replaced by new ones, sharing no mutable object with the original; the original is unchanged; the copy's parent is a copy of the original's parent. Values that are objects other than nodes, classes and constants, UNSET among them, are not kept: the copy holds another object in their place, one and the same wherever the original holds one and the same.", "quantifier": "every object graph, including parents and cycles", "why_tests_cant": "isomorphism over all graphs", "anchors": ["src/node/behaviors/mapping.py: ClonableMapping.deepcopy"]}
{"id": "C43", "title": "UUIDAware copies get new uuids", "statement": "copy() always raises RuntimeError and changes nothing; after deepcopy every node of the copied subtree has a uuid which no node had before and which are pairwise distinct, while the original's uuids are unchanged; detach does not change uuids.", "quantifier": "every tree of UUIDAware nodes", "why_tests_cant": "all tree shapes", "anchors": ["src/node/behaviors/common.py: UUIDAware"]}
{"id": "C44", "title": "treerepr is canonical for unordered nodes", "statement": "For trees of unordered nodes with string keys, treerepr does not depend on insertion order: two trees equal up to the order of children print the same text; it has one line per entry plus one for the root, in pre-order, indented by depth times two.", "quantifier": "every tree, every permutation of children, every indent and prefix", "why_tests_cant": "all permutations", "anchors": ["src/node/behaviors/nodify.py: Nodify.treerepr, noderepr"]}
{"id": "C45", "title": "acquire finds the nearest ancestor", "statement": "acquire(interface) returns the first proper ancestor on the parent chain satisfying the interface or class, or None if there is none; it never returns the node itself.", "quantifier": "every parent chain and every predicate", "why_tests_cant": "all depths", "anchors": ["src/node/behaviors/nodify.py: Nodify.acquire"]}
{"id": "C46", "title": "filteredvalues is an order-preserving filter", "statement": "filteredvalues(I) and filtereditervalues(I) return exactly the children providing I, in iteration order.", "quantifier": "every content and every interface predicate", "why_tests_cant": "all contents", "anchors": ["src/node/behaviors/nodify.py: filtereditervalues, filteredvalues"]}
{"id": "C47", "title": "ReverseMapping", "statement": "ReverseMapping(m)[v] is the first key of m holding v and raises KeyError iff no key holds v; get, in, keys, values, items and len agree with that view; for an injective m it is the inverse mapping.", "quantifier": "every mapping and value", "why_tests_cant": "all contents, with duplicates", "anchors": ["src/node/utils.py: ReverseMapping"]}
{"id": "C48", "title": "AttributeAccess", "statement": "Attribute reads and writes through AttributeAccess are item reads and writes on the wrapped node; a missing key raises AttributeError instead of KeyError; names that exist as real attributes of the wrapper (such as context) are not forwarded on read.", "quantifier": "every wrapped state and attribute name", "why_tests_cant": "all names", "anchors": ["src/node/utils.py: AttributeAccess", "src/node/behaviors/common.py: AsAttrAccess"]}
{"id": "C49", "title": "instance_property computes once", "statement": "Over any sequence of reads the underlying function runs until it first succeeds, exactly once after that, and all reads after that return that first value.", "quantifier": "every sequence of reads and every sequence of function outcomes", "why_tests_cant": "all outcome sequences", "anchors": ["src/node/utils.py: instance_property"]}
{"id": "C50", "title": "node_by_path follows keys", "statement": "node_by_path(root, path) for a list follows the keys one by one; for a string it strips slashes at both ends and splits at '/', so joining slash-free non-empty keys with '/' (with any number of leading/trailing slashes) gives the same node as the list; the empty path gives root; the first missing key's KeyError propagates.", "quantifier": "every tree, every path list, every string", "why_tests_cant": "all strings", "anchors": ["src/node/utils.py: node_by_path"]}
{"id": "C51", "title": "AbstractNode has no storage", "statement": "On AbstractNode every item operation and every derived mapping operation that needs the storage raises NotImplementedError and changes no node entries.", "quantifier": "every state and every mapping call", "why_tests_cant": "all calls with all arguments", "anchors": ["src/node/base.py: AbstractNode", "src/node/behaviors/mapping.py"]}
{"id": "C52", "title": "Serializer callback dispatch", "statement": "Serializing a node runs exactly the registered callbacks whose interface or class it provides, each once, in registration order; registering a second callback for the same interface or class replaces the first at its position.", "quantifier": "every registry history and node type", "why_tests_cant": "all registration orders", "anchors": ["src/node/serializer.py: _serializer_registry, NodeEncoder.default"]}
{"id": "C53", "title": "Node and AttributedNode are ordered mappings when used with care", "statement": "For Node and AttributedNode, every sequence of mapping calls made with care (no double-underscore keys; an assigned node is childless, held by nobody and new to the tree's index, and goes to a key that holds no node; a value replaces no node) returns exactly what an insertion-ordered dictionary with the same entries and the class' policy would return, leaves exactly the entries that dictionary would hold, and the node stays findable under its uuid. The policy: values which are neither nodes nor allowed raise ValueError, assigning or deleting with a key that is not a string raises AttributeError, reading with an unhashable key raises TypeError.", "quantifier": "every tidy history, every node found under its uuid, every finite sequence of careful calls including raising ones", "why_tests_cant": "all histories and all sequences of calls, with six behaviors interposed between the call and the storage", "anchors": ["src/node/base.py: Node, AttributedNode", "src/node/behaviors/nodespace.py: Nodespaces", "src/node/behaviors/reference.py: Reference", "src/node/behaviors/mapping.py"]}
{"id": "C54", "title": "The composition of a node class does not show through the mapping API", "statement": "A node of any class made from Adopt, NodeChildValidate, Nodespaces, Attributes, Order, Lifecycle, Invalidate, VolatileStorageInvalidate, AsAttrAccess, GetattrChildren, UnicodeAware, UUIDAware, DefaultInit and Nodify over DictStorage or OdictStorage, in any order, answers every sequence of mapping calls as an insertion-ordered dictionary would; the only difference between two such classes is whether values are validated. Keys are arbitrary without Nodespaces, and strings not of the form __x__ with Nodespaces.", "quantifier": "every class from these behaviors, every reachable state, every finite sequence of calls including raising ones; two nodes of two classes in two states", "why_tests_cant": "there are infinitely many plumbings; tests build a handful of them", "anchors": ["src/node/base.py", "src/node/behaviors/nodify.py", "src/node/behaviors/storage.py", "src/node/behaviors/common.py", "src/node/behaviors/lifecycle.py", "src/node/behaviors/nodespace.py", "src/node/behaviors/mapping.py"]}
{"id": "C55", "title": "A cached value is served until the key is written through the node", "statement": "Reading x[k] of a node with Cache returns the cached value if there is one, whatever the storage holds by then, else the stored value, which is from then on cached, else raises KeyError and caches nothing. x[k] = v and del x[k] drop k from the cache, so that after a write through the node the value written is read; a write to the storage itself is not seen while k is cached.", "quantifier": "every class of mapping behaviors with Cache at any position, every reachable state including those whose cache does not agree with the storage, every hashable key", "why_tests_cant": "tests fill a cache and read back through the same node; that a read never changes entries and caches exactly one key, from any pair of cache and storage, is a statement about all pairs", "anchors": ["src/node/behaviors/cache.py: Cache", "src/node/behaviors/storage.py"]}
{"id": "C56", "title": "update with another node shares its children", "statement": "x.update(y) with a node y that x accepts in full leaves x with its own keys in their order followed by the keys only y has in theirs, the values of y winning, and changes no entry of any other node. If the class of x adopts, every child of y then has x for its parent and a key of y for its name, while y still holds it: after updating from a node with children the tree of y is not consistent any more. A node updated with itself keeps its entries.", "quantifier": "every pair of classes from the tree behaviors (the updated one without Reference), every reachable state, every pair of nodes", "why_tests_cant": "tests update from dictionaries; what happens to the node the values come from, for every content of both nodes, is not looked at", "anchors": ["src/node/behaviors/mapping.py: ExtendedWriteMapping.update", "src/node/compat.py: iteritems", "src/node/behaviors/common.py: Adopt.__setitem__"]}
{"id": "C57", "title": "Children and attributes with attribute syntax", "statement": "On a node with GetattrChildren, node.n for a name n that normal attribute lookup does not find is the child of that name, read as node['n'] reads it; names of attributes shadow children; a missing child raises KeyError and not AttributeError, so hasattr never answers False and the default of getattr is never used. Without GetattrChildren such a name raises AttributeError. With attribute_access_for_attrs, node.attrs.n = v makes v the entry n of the attributes node, whichever wrapper is used, every later node.attrs.n reads it, the children stay, and a missing name raises AttributeError.", "quantifier": "every class from the tree behaviors with GetattrChildren, every reachable state, every name and every set of names found by normal lookup; for the attributes every class with Nodespaces and Attributes, every history without the insertion methods of Order and direct writes to storages", "why_tests_cant": "tests read one child as attribute; the error of a missing one and the shadowing depend on the names of the children and the class at once", "anchors": ["src/node/behaviors/common.py: GetattrChildren.__getattr__", "src/node/behaviors/attributes.py: Attributes.attrs", "src/node/utils.py: AttributeAccess"]}
{"id": "C58", "title": "Subscribers of lifecycle events", "statement": "Subscribers are called exactly once per successful creation, assignment, deletion or detach of an item (not at all while the node is silent), with that event, at a moment when the change is already complete: an added child is in its parent, a removed or detached one is out, after a detach the node notifies again. The call then ends as the subscribers ended: what they raise the call raises, and what they changed stays. Nothing of the change itself is undone, so raising is no veto. The exception is a class with Adopt before Lifecycle: if a subscriber raises AttributeError, KeyError or ValueError on an added node, the node gets its former name and parent back while it stays stored under the key. Failing calls call no subscriber. Changes of attributes call them with a modified event for the owner. Subscribers that do nothing change nothing, and as long as subscribers only call the API, everything that holds in all reachable states also holds in programs with subscribers.", "quantifier": "every program as subscriber (it may change any node, raise anything), every class from the tree behaviors with one Lifecycle, every reachable state, key and value; for attributes every class from plain behaviors with one AttributesLifecycle", "why_tests_cant": "tests register a subscriber that records the event; what holds when it runs, and what is left when it raises, depends on what the subscriber does and on where Adopt stands in the plumbing order", "anchors": ["src/node/behaviors/lifecycle.py: Lifecycle", "src/node/behaviors/lifecycle.py: AttributesLifecycle", "src/node/behaviors/common.py: Adopt.__setitem__"]}
{"id": "C59", "title": "Composition of behaviors", "statement": "A class can be made from any choice and order of behaviors around Nodify, with one exception: Cache needs Invalidate or VolatileStorageInvalidate. Calling __setitem__, __getitem__, __delitem__, __iter__, iterkeys, __init__, detach, copy, deepcopy, invalidate or setdefault on a node runs the hooks of exactly the behaviors of its class that plumb that method, leftmost outermost, around the method of one behavior: the one that finalizes it, else the leftmost that overrides it, else the leftmost that provides a default. Behaviors that do not declare the method have no influence on it. All other methods of the mapping and node interfaces are the same for every class.", "quantifier": "every list of behaviors, for calls every state, node of a class with Nodify, key and value", "why_tests_cant": "There are more classes than tests can compose: 23 behaviors in any choice and order.", "anchors": ["src/node/behaviors/__init__.py", "src/node/behaviors/common.py", "src/node/behaviors/nodify.py", "src/node/behaviors/mapping.py", "src/node/behaviors/storage.py", "src/node/behaviors/cache.py"]}
{"id": "C60", "title": "Loops over a node that is changed meanwhile", "statement": "A loop over a node gets every key once and in order as long as no key of this node is added or removed; values may be replaced and anything else changed. On a node with DictStorage, the first step after the number of keys changed raises RuntimeError, as do all later ones, even if all keys were already given. On a node with OdictStorage the loop goes on with the key that now follows the last one it gave: removed keys are skipped, keys added at the end are visited too (so a loop that always adds never ends), and if the last given key itself was removed the step raises KeyError. So deleting the children of a node in a loop over the node always fails in the second step. A loop that ended stays ended. keys(), values() and items() cannot run into any of this: they are such loops consumed at once and give what the node holds.", "quantifier": "every reachable state and node whose __iter__ is that of a storage without Alias, every sequence of questions to the iterator interleaved with any calls on any nodes", "why_tests_cant": "The steps of an iterator can be interleaved with calls in unboundedly many ways.", "anchors": ["src/node/behaviors/storage.py: Storage.__iter__", "src/node/behaviors/mapping.py: keys, values, items, iterkeys", "src/node/behaviors/cache.py: Cache.__iter__"]}
{"id": "C61", "title": "Blocks of a tree lock run as if one after another", "statement": "Threads that touch a tree only inside with TreeLock(node) blocks (or locktree methods) for its nodes, after the tree was locked for the first time, leave the tree, and know themselves, what they would after running their whole blocks one after another in some order that keeps the order within each thread; this holds however the work in the blocks is cut into steps, for nested blocks, exceptions, branches and loops that depend on what was read. While a thread is inside a block the tree is what completed blocks left plus the changes of this thread. What every block alone keeps, holds whenever no thread is inside. So threads calling the mapping API of a node in such blocks get the answers one ordered dictionary gives to their blocks in this order, and counting x[k] = x[k] + 1 in blocks loses nothing. On a tree that was never locked before updates can get lost.", "quantifier": "any number of threads starting any time, all schedules, any code within the discipline; for the mapping API all reachable states, all classes of tree behaviors without Reference, and all lists of calls", "why_tests_cant": "Schedules are unbounded in number and length and tests cannot control them.", "anchors": ["src/node/locking.py: TreeLock, locktree", "src/node/behaviors/mapping.py", "src/node/behaviors/storage.py"]}
{"id": "C62", "title": "Deserializing a text calls what the text names", "statement": "The class of a node in a text is whatever can be imported under that name, a function as well as a node class, and deserialize calls it with the keyword arguments the text gives in kw, before anything else happens; so reading a text can have any effect any importable callable has, the effect stays even if deserialize then raises, and a text from an untrusted source must not be deserialized. Arguments are handed over as JSON gave them: markers for UNSET, UUIDs, objects and nodes are not decoded inside of kw, so a uuid argument arrives as string. Nothing is called if class or name are missing or the class cannot be imported, and what is given by __ob__ is never called. For texts that name node classes and give no arguments all other properties of deserialization hold unchanged.", "quantifier": "every text, every importable callable with any effect, every state and root", "why_tests_cant": "Tests deserialize texts the serializer wrote; what other texts do depends on everything that is importable.", "anchors": ["src/node/serializer.py: NodeDecoder.resolve, NodeDecoder.node_factory, NodeDecoder.decode, deserialize"]}
{"id": "C63", "title": "Separate trees do not affect each other", "statement": "If no object can be reached from two nodes both (along parents, children, attributes, caches and indexes), then no sequence of calls on the one and on whatever is reached from it or created meanwhile changes anything that can be reached from the other, whatever fails on the way, and the two stay separate. New nodes without parent, deep copies and trees deserialized without root are separate from every node that existed before, and making them leaves every existing node as it was, also if making them fails. A detached child is not separate from its old tree, since it keeps its parent, and neither is a shallow copy of a node whose storage was used.", "quantifier": "every reachable state, all classes and behaviors, all lists of calls; for deserialization every text", "why_tests_cant": "A test can only look at the nodes it knows of and at the call sequences it tries.", "anchors": ["src/node/behaviors/mapping.py", "src/node/behaviors/nodify.py", "src/node/behaviors/reference.py", "src/node/behaviors/common.py", "src/node/behaviors/nodespace.py", "src/node/behaviors/fallback.py", "src/node/behaviors/cache.py", "src/node/behaviors/order.py", "src/node/serializer.py: deserialize"]}
{"id": "C64", "title": "Locking a tree rules out deep copies of it", "statement": "TreeLock keeps its lock as an attribute of the root node. After a node was locked, for the rest of the program every node which has that root, and every node from which that root can be reached, refuses deepcopy() with TypeError and nothing changes; all nodes with that root get the same lock and nodes with other roots get other locks. deepcopy() of a node from which no locked root can be reached works as without locks. A shallow copy of a locked root takes over its lock. If the root has GetattrChildren and was not locked before, TreeLock asks its children for _treelock: it raises their KeyError, or takes the child of that name for the lock.", "quantifier": "every program of calls and locks, every object graph", "why_tests_cant": "Tests of locking make no copies and tests of copies take no locks; whether a lock can be reached depends on the whole object graph.", "anchors": ["src/node/locking.py: TreeLock", "src/node/behaviors/mapping.py: ClonableMapping", "src/node/behaviors/nodify.py: copy", "src/node/behaviors/common.py: GetattrChildren"]}
{"id": "C65", "title": "The mapping tester reports exactly what fails for a reason", "statement": "FullMappingTester, run on an empty node whose class is made of a storage, adoption, validation and passive behaviors, or given no node at all, writes a result for each of the twenty functions of the interface in its order. The result is OK, except for: with node checks and a class that does not adopt, the six tests that look at names of children; for a UUIDAware class, copy. The node ends empty and with the name and parent it had, except a UUIDAware node tested with node checks, which keeps the name the tester gave it. Limits: a node that is not empty is reported as no mapping; a class that passes need not be a mapping for every key.", "quantifier": "every reachable state, every empty node, every such class of node and of children, in any order of behaviors, node checks on or off", "why_tests_cant": "The tester is what the tests use: they show its results for some classes, not that it accepts every class it should, nor what it leaves behind.", "anchors": ["src/node/testing/fullmapping.py: FullMappingTester", "src/node/testing/base.py: BaseTester, ResultWriter"]}
{"id": "C66", "title": "GetattrChildren rules out copies", "statement": "copy() of a node with GetattrChildren raises KeyError, and so does deepcopy() of any node from which a node with GetattrChildren can be reached over parents, children and attributes, in whatever order deepcopy visits them (another error if such a node holds something under the name of the special method asked for); in no case is there a copy, and no node changes. If no such node can be reached, copy() and deepcopy() work as C41-C43 say.", "quantifier": "every reachable state, every node, every order of visiting, Python before and after 3.11", "why_tests_cant": "Tests of GetattrChildren make no copies and tests of copies do not use it; that one such node blocks deep copies of all others in its tree depends on the whole object graph.", "anchors": ["src/node/behaviors/common.py: GetattrChildren", "src/node/behaviors/mapping.py: ClonableMapping", "src/node/behaviors/nodify.py: copy"]}
{"id": "C67", "title": "Caching nodes in concert", "statement": "However calls of the mapping API and invalidations of keys on several nodes with Cache or without are interleaved (parents and their children, nodes that hold each other), each node answers what it was asked as a dictionary of its own, its cache never gives a value its storage does not hold, nodes that were asked nothing keep entries and cache, and reordering what is asked of different nodes changes no answer.", "quantifier": "every reachable state with caches up to date, every list of calls on any nodes, every interleaving", "why_tests_cant": "Tests use one caching node at a time; that two nodes never share or disturb storages and caches is about all interleavings.", "anchors": ["src/node/behaviors/cache.py: Cache", "src/node/behaviors/cache.py: Invalidate", "src/node/behaviors/cache.py: VolatileStorageInvalidate", "src/node/behaviors/storage.py: Storage"]}
{"id": "C68", "title": "Event attributes kept in node attributes", "statement": "An EventAttribute with storage='attrs' and node.attrs are two ways to one dictionary: what is assigned, deleted or read in one way is seen in the other, in any history; an event is dispatched exactly when an assignment through the attribute changes what reading gives (or always, with always_dispatch) and with UNSET on deletion, never when the value is refused or node.attrs is used; events are those the default storage would dispatch; the node keeps its children. With attribute_access_for_attrs the attributes can neither be read nor assigned.", "quantifier": "every reachable state of a node with attributes of mapping behaviors, every history, every equality of values, every default", "why_tests_cant": "Tests assign one attribute once; agreement of two ways to write over all histories, with refusals and deletions in between, is about all sequences.", "anchors": ["src/node/behaviors/events.py: EventAttribute", "src/node/behaviors/attributes.py: Attributes", "src/node/utils.py: AttributeAccess"]}
{"id": "C69", "title": "Loops over aliased nodes while they are changed", "statement": "iter() of a node with Alias looks at nothing before it is asked for the first key: calls made before that are seen, also by nodes with a dict storage. From then on, as long as no key is added or removed, the loop yields the aliases of the keys in order, leaving out keys without an alias if the aliaser is a DictAliaser, else ending with the aliaser's exception. If the number of keys of a dict storage changes, the loop gets RuntimeError once and then ends (a plain node goes on raising); with an odict storage it goes on with the next key that has an alias after the last one, or gets KeyError with the key of the storage, not the alias, if that one is gone. After any exception or the end there are no more keys. keys() is this loop consumed at once.", "quantifier": "every reachable state, every sequence of operations before and between the steps of the loop, every aliaser", "why_tests_cant": "tests exhaust the iterator at once", "anchors": ["src/node/behaviors/alias.py: Alias.__iter__", "src/node/behaviors/storage.py: Storage.__iter__", "src/node/behaviors/mapping.py: EnumerableMapping.keys"]}
{"id": "C70", "title": "Fixed children stay for ever", "statement": "Once a node with FixedChildren is constructed, no operation on any node, whether it succeeds or fails, changes which children it has, under which keys and in which order: not assignments and deletions on the node, not writing to a storage it has besides, not giving a child another name or parent or putting it into another node, not copying. Every later access of a key returns the very same object or raises KeyError, every later listing returns the same keys, and a loop over the node gets each key once, in order, whatever is called between its steps. keys() is this loop consumed at once.", "quantifier": "every reachable state, every sequence of operations on all nodes (also with arguments that do not exist), every sequence of steps of a loop and operations between them", "why_tests_cant": "tests try to set and delete one key of one fixed node; nothing tells that no other operation in the package reaches its children", "anchors": ["src/node/behaviors/common.py: FixedChildren.__init__", "src/node/behaviors/common.py: FixedChildren.__getitem__", "src/node/behaviors/common.py: FixedChildren.__iter__", "src/node/behaviors/common.py: FixedChildren.__setitem__", "src/node/behaviors/common.py: FixedChildren.__delitem__"]}
{"id": "C71", "title": "Reading does not influence what is read later", "statement": "Item access, get, membership tests, key, value and item listings, filteredvalues, len, path, root, acquire and node_by_path, asked of any nodes in any order and any number of times, each answer as they would have answered in the beginning, and nothing that can be seen changes. This holds in trees whose nodes have neither Cache nor ChildFactory, whatever other behaviors they have (Fallback, Alias, Nodespaces and FixedChildren among them). With caching nodes it holds but for the content of the caches, also where these are stale, as long as Fallback is not right of Cache. It fails for Cache left of Fallback, where reading one node makes a key appear on another, and for ChildFactory right of a storage, where a membership test adds to the keys.", "quantifier": "every reachable state without child creating nodes and without Cache left of Fallback, every list of questions to all nodes", "why_tests_cant": "tests ask one question after another of a few nodes; that lazily made storages, the fallback search and its counter leave nothing behind has to hold for all sequences", "anchors": ["src/node/behaviors/mapping.py: MappingAdopt", "src/node/behaviors/fallback.py: Fallback.__getitem__", "src/node/behaviors/cache.py: Cache.__getitem__", "src/node/behaviors/common.py: ChildFactory.__getitem__", "src/node/behaviors/nodify.py: Nodify.path", "src/node/utils.py: node_by_path"]}
{"id": "C72", "title": "Children can be brought into any order", "statement": "If all children of an ordered node are nodes held under their names with the node as parent, then for every order of its keys, detaching the children and passing them to insertlast in that order succeeds and the node iterates in that order afterwards. Moving one child with detach and insertbefore or insertafter puts it next to the reference node and keeps the order of the others, and moving it before the child that followed it undoes this. In all cases every key keeps its value, every node its name, parent and uuid, and no other node changes its entries. With Reference this holds, and all nodes are still found by their uuids, if the children have no children themselves. It fails for subtrees: a grandchild of a moved child does not find the root by its uuid any more.", "quantifier": "every reachable state, every node with Order over an odict and Adopt, whatever the number of its children, every permutation of its keys; with Reference every tidy history and childless children", "why_tests_cant": "tests move one or two children of a fixed tree; that every permutation is reached without losing, duplicating or renaming a child concerns all lengths and all orders", "anchors": ["src/node/behaviors/order.py: Order.insertlast, insertbefore, insertafter", "src/node/behaviors/nodify.py: Nodify.detach", "src/node/behaviors/common.py: Adopt.__setitem__"]}
