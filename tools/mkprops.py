#!/usr/bin/env python3
"""Writes /verif/properties.jsonl.  One P(...) call per property."""
import json
OUT = []
def P(id, title, statement, quantifier, why, anchors):
    OUT.append(dict(id=id, title=title, statement=statement, quantifier=quantifier,
                    why_tests_cant=why, anchors=anchors))
B = 'src/node/behaviors/'
P('C01', 'A node is an ordered mapping',
  "For BaseNode and OrderedNode, every sequence of mapping calls (item set/get/delete, get, in, keys, values, items, len, pop, popitem, setdefault, update, clear) returns exactly what a plain insertion-ordered dictionary holding the same entries would return (overwriting keeps a key's position, popitem takes the last entry, a missing key raises KeyError carrying that key, unhashable keys raise TypeError), and leaves the node holding exactly the entries that dictionary would hold. Values which are neither nodes nor allowed are refused with ValueError and change nothing.",
  "every initial content, every finite sequence of mapping calls, every key and value, both node classes",
  "tests run a fixed script of about twenty calls on two keys; the claim is about every history, including failing calls in the middle of a history",
  [B+'mapping.py: ReadMapping, EnumerableMapping, ExtendedWriteMapping', B+'storage.py: Storage', B+'common.py: Adopt, NodeChildValidate', 'src/node/base.py: BaseNode, OrderedNode'])
P('C02', 'Item assignment and deletion touch only what they name',
  "Successfully setting or deleting an item on a node changes the entries of that node at that key only: every other entry of that node keeps its value and relative order, every other node keeps its entries, and apart from the adopted child no node's name or parent changes.",
  "every state in which nodes do not share storage, every node, key and value",
  "a frame condition quantifies over all the objects that are NOT mentioned; a test can only look at a few of them",
  [B+'storage.py: Storage', B+'common.py: Adopt', 'src/node/base.py'])
P('C03', 'Child validation',
  "On a node with NodeChildValidate and allow_non_node_childs false, setting an item to a class or to anything that is not a node raises ValueError and changes nothing at all; consequently, over every history of calls through the mapping and ordering API starting from an empty node, every value the node holds is a node.",
  "every history of API calls, every key and value, every plumbing whose outermost set hook is NodeChildValidate",
  "the invariant is over all histories and all entry points (update, setdefault, insertbefore, ...)",
  [B+'common.py: NodeChildValidate'])
P('C04', 'Adoption',
  "After a successful node[key] = child on a node with Adopt, child.name == key, child.parent is node, and node[key] is that same child object.",
  "every state, node, key and child; for BaseNode, OrderedNode and Node/AttributedNode plumbing",
  "holds for all states and keys, including re-adoption of a child that already has another parent",
  [B+'common.py: Adopt.__setitem__', 'src/node/base.py'])
P('C05', 'A refused child keeps its name and parent',
  "If node[key] = child fails with AttributeError, KeyError or ValueError anywhere below Adopt, the child's name and parent are what they were before the call. For any other exception type (an unhashable key's TypeError, a read-only node's NotImplementedError) the child is left pointing at the node that refused it; the boundary is exactly this exception list.",
  "every behaviour stack below Adopt, every state, key and child, every raised exception",
  "quantifies over every inner behaviour stack and failure point, not just the one failing mock in the tests",
  [B+'common.py: Adopt.__setitem__ lines 27-45'])
P('C06', 'Containment is consistent',
  "Over every history of node creation, item assignment, deletion, detaching and direct assignment of __name__ and __parent__ in which a node is only ever assigned or given a name and parent by hand while it is not held anywhere and not on the parent chain of the node it is put below, every held child has name equal to its key and parent identical to its holder, and no node is held twice. Without that discipline it fails: assigning one node under two keys leaves one entry whose child reports the other key as name.",
  "every history of create/set/delete/detach/pop calls and direct assignments of __name__ and __parent__ over any number of nodes obeying the stated discipline",
  "an invariant over unbounded histories and object graphs",
  [B+'common.py: Adopt', B+'nodify.py: Nodify.detach', B+'mapping.py'])
P('C07', 'Path and root describe the position in the tree',
  "In every state reachable as in C06, reading path and root always terminates; the path of the node held at key k by n is the path of n followed by k; its root is the root of n; and looking up the remaining path from an ancestor leads back to the node itself. Without the discipline reading path can run forever: detach a child and assign its former parent below it.",
  "every reachable state, every node, every depth",
  "termination and position of arbitrarily deep trees over arbitrary histories",
  [B+'nodify.py: Nodify.path, Nodify.root', 'src/node/utils.py: LocationIterator, node_by_path'])
P('C08', 'Detach returns the child and removes exactly it',
  "detach(key) returns the object that node[key] returned before and afterwards behaves as deletion of key; a missing key raises KeyError(key) and changes no entries. The detached node keeps its old name and parent (so its path and root still go through the old parent) until it is assigned again.",
  "every state, node and key",
  "quantifies over all states; the stale parent is nowhere asserted by the tests",
  [B+'nodify.py: Nodify.detach', B+'mapping.py: pop, popitem'])
P('C09', 'Bulk update applies a prefix',
  "update(data) assigns the pairs in order; if assigning some pair raises, the exception propagates, all earlier pairs have been applied exactly as individual assignments would have, and no later pair is. More than one positional argument raises TypeError and changes nothing.",
  "every data list, every failing position, every node class modelled",
  "the failure point ranges over all positions and the data over all lists",
  [B+'mapping.py: ExtendedWriteMapping.update'])
P('C10', 'Nodespaces are isolated from children',
  "On a node with Nodespaces, setting, reading or deleting a key that starts and ends with two underscores acts only on the nodespaces and never changes the ordinary children, and operations on any other key never change the nodespaces; such keys set through the item API never show up when iterating; node['__children__'] is the node itself until replaced or deleted.",
  "every state, every key (including '__' and '___'), every history of item operations on a Node",
  "separation over all histories and all keys",
  [B+'nodespace.py: Nodespaces'])
P('C11', 'attrs is one stable nodespace',
  "node.attrs creates the attributes object once: every later access returns the same object as long as the '__attrs__' nodespace is not reassigned or deleted; it equals node['__attrs__'], its name is '__attrs__', its parent is the node, and neither reading nor writing attributes changes the node's children. A node without the behavior Attributes, or without Nodespaces, has no attrs: AttributeError, and nothing is created.",
  "every node with Nodespaces and Attributes, every history of attrs accesses and item operations",
  "identity must survive every history",
  [B+'attributes.py: Attributes.attrs, NodeAttributes', B+'nodespace.py'])
P('C12', 'The reference index is exactly the tree',
  "Over every history which creates nodes, assigns childless free-standing nodes to keys that hold no node (by item assignment, setdefault, update or ordered insertion), deletes, detaches and changes uuids, for every node of every tree: the index contains exactly the nodes of that tree, each under its uuid, all nodes of the tree share one index, and node(uuid) finds a node anywhere in the tree from anywhere in the tree; deleting removes the whole subtree from the index without raising; a detached subtree gets an index of its own with exactly its nodes.",
  "every finite history of these operations, every tree shape",
  "the tests look at one tree of four nodes; the claim is an invariant over all histories and shapes",
  [B+'reference.py: Reference', 'src/node/base.py: Node, AttributedNode'])
P('C13', 'uuid assignment keeps the index keyed correctly',
  "Assigning a uuid used by another node of the same tree raises ValueError and changes nothing; otherwise the node is found under the new uuid and no longer under the old one, and all other index entries are unchanged.",
  "every state, node and uuid",
  "quantifies over all index contents",
  [B+'reference.py: Reference.uuid'])
P('C14', 'Where the reference index breaks',
  "Outside the discipline of C12 the index is wrong, with concrete histories: assigning a node that has children leaves its descendants on their old index (a node added below them later is not found from the root and deleting the subtree then raises KeyError); overwriting a key leaves the replaced node in the index; a childless node can be assigned twice in the same tree; re-assigning a node removed with del imports the whole index of its former tree.",
  "existence of histories (witnesses), each checked on the full model",
  "the existing tests stop right before each of these states",
  [B+'reference.py: Reference.__setitem__ lines 39-51', B+'reference.py: Reference.__delitem__'])
P('C15', 'Ordered insertion puts the node where asked',
  "On a class with Order over an odict, insertbefore/insertafter(new, ref) with a named new node whose name is not yet a key and a ref held by the node makes new the immediate predecessor/successor of ref, keeps the relative order and values of all other entries, and adopts new; insertfirst/insertlast put it first/last.",
  "every content, every position of ref, every new name, with and without Reference",
  "all lengths and positions",
  [B+'order.py: Order'])
P('C16', 'Refused ordered insertion',
  "An unnamed new node, a ref that is not held, or (with Reference) a node already in the tree raises ValueError, ValueError, KeyError respectively and changes neither entries, names, parents nor index. A failure detected later does not: when the new node's subtree shares a uuid with the tree, insertbefore raises ValueError but the node stays in the entries; insertfirst/insertlast on an empty node skip the name check. Where the storage is a plain dict an admitted node is refused with AttributeError and nothing changes.",
  "every state and arguments; witnesses for the violations",
  "the tests check the exception but never the state afterwards",
  [B+'order.py: Order._validateinsertion, insertbefore, insertafter, insertfirst, insertlast'])
P('C17', 'swap exchanges two positions',
  "swap(a, b) exchanges exactly the positions of the two keys and nothing else; performing it twice restores the order; an absent key raises KeyError and equal keys raise ValueError, both changing nothing; so does AttributeError where the class has no Order or keeps its children in a plain dict.",
  "every content, every pair of keys",
  "all lengths, all pairs of positions (adjacent, first, last)",
  [B+'order.py: Order.swap'])
P('C18', 'One lifecycle event per change',
  "On a node with Lifecycle and notification not suppressed: creating a node emits exactly one created event; a successful item assignment emits exactly one added event naming child, new parent and key; a successful deletion exactly one removed event naming the deleted child, parent and key; a successful detach exactly one detached event and no removed event; failing operations emit nothing.",
  "every history of item operations, every outcome",
  "event counts over all histories including failing calls",
  [B+'lifecycle.py: Lifecycle'])
P('C19', 'A failing detach must not silence later events',
  "After any sequence of calls, later successful changes still emit their events. This is false: detach of a missing key raises KeyError and leaves notification suppressed, so every following add and delete on that node is silent until the next successful detach.",
  "every history; witness plus the exact characterisation of the suppressed state",
  "needs a failing call followed by a successful one",
  [B+'lifecycle.py: Lifecycle.detach lines 51-58'])
P('C20', 'Attribute changes emit modified events',
  "With AttributesLifecycle every successful attribute assignment or deletion emits exactly one modified event for the owning node unless the owner suppresses notification; failing ones emit none.",
  "every state, attribute key and value",
  "all states and outcomes",
  [B+'lifecycle.py: AttributesLifecycle', B+'attributes.py'])
P('C21', 'The cache is transparent',
  "For a node with Cache over a storage changed only through that node, every history of item set/get/delete/contains/iterate/invalidate(key) calls returns the same results and exceptions as the same node without Cache.",
  "every history, every key and value",
  "coherence of two dictionaries over all histories",
  [B+'cache.py: Cache, Invalidate, VolatileStorageInvalidate'])
P('C22', 'invalidate() drops everything',
  "invalidate() without key on a caching node empties the cache and then invalidates every child of the underlying node. The cache is always emptied, but the second half is false whenever something was cached: the loop variable overwrites the argument, so only the last cached key is invalidated underneath (and a cached key missing underneath raises KeyError).",
  "every cache content and storage content",
  "the test happens to run it with exactly one remaining child",
  [B+'cache.py: Cache.invalidate lines 80-91'])
P('C23', 'Invalidation',
  "Invalidate: invalidate(key) deletes that child (KeyError if absent), invalidate() deletes all children. VolatileStorageInvalidate: invalidate(key) removes the entry from storage, KeyError exactly if key is not a key of the node; invalidate() empties the storage; the node's own item hooks are bypassed.",
  "every state and key",
  "all contents",
  [B+'cache.py: Invalidate, VolatileStorageInvalidate'])
P('C24', 'Child factories run once per key',
  "With ChildFactory, iterating yields exactly the factory keys in declared order whatever has been created; node[key] for a factory key always succeeds, creates the child the first time, and every later access returns that same object until it is deleted or invalidated; a key that is neither stored nor a factory raises KeyError.",
  "every history of gets, sets and deletes, every factory table",
  "laziness and identity over all histories",
  [B+'common.py: ChildFactory'])
P('C25', 'Fixed children are immutable',
  "With FixedChildren no history of mapping calls changes the children or their order: every attempt to set or delete raises NotImplementedError, reads keep returning the objects created at construction, each having its key as name and the node as parent.",
  "every history of calls, every factory table",
  "immutability over all histories and all derived mutators",
  [B+'common.py: FixedChildren'])
P('C26', 'Aliasers invert',
  "For PrefixAliaser, SuffixAliaser with a non-empty suffix, chains of them, and strict DictAliaser with distinct real keys: unalias(alias(k)) == k, and whenever unalias(a) succeeds alias(unalias(a)) == a; unalias raises KeyError exactly for strings not of the aliased form. With an empty suffix SuffixAliaser.unalias returns '' for every key, so PrefixSuffixAliaser without suffix is broken for every key. Non-strict DictAliaser does not invert when a key collides with an alias.",
  "every prefix, suffix, dictionary, chain length and key",
  "string laws over all strings; the empty suffix is untested",
  [B+'alias.py: DictAliaser, PrefixAliaser, SuffixAliaser, AliaserChain, PrefixSuffixAliaser'])
P('C27', 'An aliased node is the same mapping under renamed keys',
  "With an aliaser that inverts, item set/get/delete under the alias of k act on the underlying entry k; iteration yields exactly the aliases of the underlying keys in order (a strict DictAliaser skips keys it does not list); a missing entry raises KeyError carrying the alias that was asked for, not the internal key.",
  "every state, aliaser and key",
  "all aliasers and contents",
  [B+'alias.py: Alias'])
P('C28', 'Fallback lookup',
  "node[key] with Fallback returns the node's own value whenever it has one. Otherwise a value is returned only if it is found at the requested path with one or more ancestors' components replaced by that ancestor's parent's fallback_key (a chain of such replacements); if nothing is found the original KeyError for the requested key is raised, except when a declared fallback_key does not exist on its node, in which case KeyError names the fallback_key and the search stops.",
  "every tree, every placement of fallback keys, every requested path",
  "all tree shapes and fallback placements",
  [B+'fallback.py: Fallback, _to_root, _to_leaf'])
P('C29', 'Fallback lookup terminates and is re-entrant',
  "On every finite tree with well-formed parents the fallback search terminates, visiting each node as a fallback origin at most once, and leaves the processing counter as it found it on every outcome; nested lookups made during the search never start a search of their own.",
  "every finite tree, every outcome",
  "termination over all trees",
  [B+'fallback.py: fallback_processing, _to_root, _to_leaf'])
P('C30', 'JSON round trip of node trees',
  "deserialize(serialize(tree)) rebuilds a tree with the same classes, names, child order and attributes, for every tree of nodes whose classes resolve by their dotted name and whose attributes are representable values (see C31) or such trees again; attributes that are nodes come back as children of the attributes node, at every depth; given root=parent the result is assigned into parent under its name.",
  "every tree shape, depth, name and attribute table",
  "round trip over all trees",
  ['src/node/serializer.py: NodeEncoder, NodeDecoder, serialize_node, deserialize_node, serialize_node_attributes, deserialize_node_attributes'])
P('C31', 'JSON round trip of values',
  "None, booleans, integers, strings, UNSET, UUIDs, classes/functions and lists of them decode to themselves, provided no string is '<UNSET>' or starts with '<UUID>:' and dictionaries have neither a '__ob__' nor a '__node__' key and contain no UNSET/UUID/object inside. Outside of that the round trip is lossy: the string '<UNSET>' comes back as UNSET, UNSET inside a dict comes back as a string.",
  "every representable value, any nesting; witnesses for the collisions",
  "all nestings; collisions are untested",
  ['src/node/serializer.py: NodeEncoder.default, NodeDecoder.decode'])
P('C32', 'What serialization silently drops',
  "Children that are not nodes are written to the JSON but lost on deserialization; uuids of nodes are not carried over; in simple mode no class information and no '__node__' wrapper is written, and with include_class only the class name is added.",
  "every tree; witnesses",
  "no test serializes non-node children",
  ['src/node/serializer.py: serialize_node, deserialize_node, NodeEncoder.default'])
P('C33', 'StrCodec',
  "For every nested structure of strings, bytes, lists, tuples, dicts, nodes and other objects and every codec that decodes what it encodes: if encode(x) succeeds then decode(encode(x)) == decode(x), also when dict keys collide, and encode(encode(x)) == encode(x). Every leaf of the result is a leaf of the argument converted; objects of other types are returned unchanged; bytes that are not valid in the encoding are left as they are in soft mode. Where no dict key contains a node, decode fails exactly in strict mode with invalid bytes somewhere, with UnicodeDecodeError. UTF-8 is such a codec.",
  "every nested structure, every codec satisfying decode(encode s) = s",
  "all nestings",
  ['src/node/utils.py: StrCodec'])
P('C34', 'Event subscription and dispatch',
  "dispatch(e, args) calls each subscriber bound to e exactly once, in order of first binding, with exactly these arguments, and no other; bind of an event neither registered on the instance nor declared on the class raises UnknownEvent; binding twice has no further effect; unbind with event and/or subscriber removes exactly the matching pairs.",
  "every history of register/bind/unbind/dispatch",
  "all histories",
  [B+'events.py: Events'])
P('C35', 'Subscribers that change subscriptions while being called',
  "If subscribers do not change the subscriber list of the event being dispatched, each is called exactly once. A subscriber that unbinds itself during dispatch causes the following subscriber to be skipped; a subscriber bound during dispatch is called in the same dispatch.",
  "every subscriber list and every subscriber behaviour over the subscription API",
  "needs re-entrant subscribers",
  [B+'events.py: Events.dispatch line 307'])
P('C36', 'Event attributes',
  "Assigning an event attribute stores the value and dispatches exactly if the value changed (or always_dispatch): first the decorator subscribers with the object, then the bound ones; reading returns the last assigned value or the default; deleting restores the default and dispatches UNSET to the bound subscribers only. Decorator subscribers of one attribute never receive another dispatch.",
  "every history of sets, deletes, binds and dispatches",
  "hidden thread-local handover must be empty after every operation in every history",
  [B+'events.py: EventAttribute, _subscribers'])
P('C37', 'suppress_events is scoped',
  "Inside any nesting of suppress_events blocks an event is delivered iff no enclosing block names it or suppresses all; after leaving a block, normally or by exception, suppression is exactly as before it. A suppress_events object that is created but never entered, however, suppresses its event inside any later unrelated block.",
  "every nesting depth, every set of names, every exit path",
  "all nestings and exception points",
  [B+'events.py: suppress_events, Events.dispatch'])
P('C38', 'Thread-local state exists only in the importing thread',
  "dispatch, suppress_events and fallback lookup work in every thread. False: their thread-local fields are initialised only in the thread that imported the module; in any other thread dispatch, entering suppress_events and a fallback search raise AttributeError before calling any subscriber.",
  "every thread other than the importing one, every dispatcher state",
  "all tests run in the importing thread",
  [B+'events.py lines 64-66, 91-92', B+'fallback.py lines 13-15'])
P('C39', 'The tree lock excludes',
  "Once the root carries its lock, then under every interleaving of any number of threads locking any nodes of that tree, at most one thread is inside the locked region at a time. On a tree never locked before, two threads can both be inside: creation of the lock is check-then-set.",
  "every schedule of any number of threads",
  "all interleavings; the failing one needs a particular schedule",
  ['src/node/locking.py: TreeLock'])
P('C40', 'Lock release on every path',
  "A locktree method and a with TreeLock block release the lock exactly as often as they acquired it, whether the body returns or raises, for every nesting; the exception of the body propagates; a body that re-roots the tree does not change which lock is released.",
  "every body, every nesting, every outcome",
  "all nestings and outcomes",
  ['src/node/locking.py: TreeLock, locktree'])
P('C41', 'Shallow copies',
  "copy() returns a new node with the same name, parent and children. If the node's storage has been touched before, the copy and the original share it: setting or deleting on one is visible on the other; if it has not been touched, they are independent.",
  "every state, every subsequent operation",
  "tests only read from the copy",
  [B+'mapping.py: ClonableMapping.copy', B+'nodify.py: Nodify.copy', B+'storage.py', 'src/node/utils.py: instance_property'])
P('C42', 'Deep copies',
  "deepcopy() yields a structure isomorphic to the original (classes, names, keys, order, values, index), with all node objects replaced by new ones, sharing no mutable object with the original; the original is unchanged; the copy's parent is a copy of the original's parent. Values that are objects other than nodes, classes and constants, UNSET among them, are not kept: the copy holds another object in their place, one and the same wherever the original holds one and the same.",
  "every object graph, including parents and cycles",
  "isomorphism over all graphs",
  [B+'mapping.py: ClonableMapping.deepcopy'])
P('C43', 'UUIDAware copies get new uuids',
  "copy() always raises RuntimeError and changes nothing; after deepcopy every node of the copied subtree has a uuid which no node had before and which are pairwise distinct, while the original's uuids are unchanged; detach does not change uuids.",
  "every tree of UUIDAware nodes",
  "all tree shapes",
  [B+'common.py: UUIDAware'])
P('C44', 'treerepr is canonical for unordered nodes',
  "For trees of unordered nodes with string keys, treerepr does not depend on insertion order: two trees equal up to the order of children print the same text; it has one line per entry plus one for the root, in pre-order, indented by depth times two.",
  "every tree, every permutation of children, every indent and prefix",
  "all permutations",
  [B+'nodify.py: Nodify.treerepr, noderepr'])
P('C45', 'acquire finds the nearest ancestor',
  "acquire(interface) returns the first proper ancestor on the parent chain satisfying the interface or class, or None if there is none; it never returns the node itself.",
  "every parent chain and every predicate",
  "all depths",
  [B+'nodify.py: Nodify.acquire'])
P('C46', 'filteredvalues is an order-preserving filter',
  "filteredvalues(I) and filtereditervalues(I) return exactly the children providing I, in iteration order.",
  "every content and every interface predicate",
  "all contents",
  [B+'nodify.py: filtereditervalues, filteredvalues'])
P('C47', 'ReverseMapping',
  "ReverseMapping(m)[v] is the first key of m holding v and raises KeyError iff no key holds v; get, in, keys, values, items and len agree with that view; for an injective m it is the inverse mapping.",
  "every mapping and value",
  "all contents, with duplicates",
  ['src/node/utils.py: ReverseMapping'])
P('C48', 'AttributeAccess',
  "Attribute reads and writes through AttributeAccess are item reads and writes on the wrapped node; a missing key raises AttributeError instead of KeyError; names that exist as real attributes of the wrapper (such as context) are not forwarded on read.",
  "every wrapped state and attribute name",
  "all names",
  ['src/node/utils.py: AttributeAccess', B+'common.py: AsAttrAccess'])
P('C49', 'instance_property computes once',
  "Over any sequence of reads the underlying function runs until it first succeeds, exactly once after that, and all reads after that return that first value.",
  "every sequence of reads and every sequence of function outcomes",
  "all outcome sequences",
  ['src/node/utils.py: instance_property'])
P('C50', 'node_by_path follows keys',
  "node_by_path(root, path) for a list follows the keys one by one; for a string it strips slashes at both ends and splits at '/', so joining slash-free non-empty keys with '/' (with any number of leading/trailing slashes) gives the same node as the list; the empty path gives root; the first missing key's KeyError propagates.",
  "every tree, every path list, every string",
  "all strings",
  ['src/node/utils.py: node_by_path'])
P('C51', 'AbstractNode has no storage',
  "On AbstractNode every item operation and every derived mapping operation that needs the storage raises NotImplementedError and changes no node entries.",
  "every state and every mapping call",
  "all calls with all arguments",
  ['src/node/base.py: AbstractNode', B+'mapping.py'])
P('C52', 'Serializer callback dispatch',
  "Serializing a node runs exactly the registered callbacks whose interface or class it provides, each once, in registration order; registering a second callback for the same interface or class replaces the first at its position.",
  "every registry history and node type",
  "all registration orders",
  ['src/node/serializer.py: _serializer_registry, NodeEncoder.default'])
P('C53', 'Node and AttributedNode are ordered mappings when used with care',
  "For Node and AttributedNode, every sequence of mapping calls made with care (no double-underscore keys; an assigned node is childless, held by nobody and new to the tree's index, and goes to a key that holds no node; a value replaces no node) returns exactly what an insertion-ordered dictionary with the same entries and the class' policy would return, leaves exactly the entries that dictionary would hold, and the node stays findable under its uuid. The policy: values which are neither nodes nor allowed raise ValueError, assigning or deleting with a key that is not a string raises AttributeError, reading with an unhashable key raises TypeError.",
  "every tidy history, every node found under its uuid, every finite sequence of careful calls including raising ones",
  "all histories and all sequences of calls, with six behaviors interposed between the call and the storage",
  ['src/node/base.py: Node, AttributedNode', B+'nodespace.py: Nodespaces', B+'reference.py: Reference', B+'mapping.py'])
P('C54', 'The composition of a node class does not show through the mapping API',
  "A node of any class made from Adopt, NodeChildValidate, Nodespaces, Attributes, Order, Lifecycle, Invalidate, VolatileStorageInvalidate, AsAttrAccess, GetattrChildren, UnicodeAware, UUIDAware, DefaultInit and Nodify over DictStorage or OdictStorage, in any order, answers every sequence of mapping calls as an insertion-ordered dictionary would; the only difference between two such classes is whether values are validated. Keys are arbitrary without Nodespaces, and strings not of the form __x__ with Nodespaces.",
  "every class from these behaviors, every reachable state, every finite sequence of calls including raising ones; two nodes of two classes in two states",
  "there are infinitely many plumbings; tests build a handful of them",
  ['src/node/base.py', B+'nodify.py', B+'storage.py', B+'common.py', B+'lifecycle.py', B+'nodespace.py', B+'mapping.py'])
P('C55', 'A cached value is served until the key is written through the node',
  "Reading x[k] of a node with Cache returns the cached value if there is one, whatever the storage holds by then, else the stored value, which is from then on cached, else raises KeyError and caches nothing. x[k] = v and del x[k] drop k from the cache, so that after a write through the node the value written is read; a write to the storage itself is not seen while k is cached.",
  "every class of mapping behaviors with Cache at any position, every reachable state including those whose cache does not agree with the storage, every hashable key",
  "tests fill a cache and read back through the same node; that a read never changes entries and caches exactly one key, from any pair of cache and storage, is a statement about all pairs",
  [B+'cache.py: Cache', B+'storage.py'])
P('C56', 'update with another node shares its children',
  "x.update(y) with a node y that x accepts in full leaves x with its own keys in their order followed by the keys only y has in theirs, the values of y winning, and changes no entry of any other node. If the class of x adopts, every child of y then has x for its parent and a key of y for its name, while y still holds it: after updating from a node with children the tree of y is not consistent any more. A node updated with itself keeps its entries.",
  "every pair of classes from the tree behaviors (the updated one without Reference), every reachable state, every pair of nodes",
  "tests update from dictionaries; what happens to the node the values come from, for every content of both nodes, is not looked at",
  [B+'mapping.py: ExtendedWriteMapping.update', 'src/node/compat.py: iteritems', B+'common.py: Adopt.__setitem__'])
P('C57', 'Children and attributes with attribute syntax',
  "On a node with GetattrChildren, node.n for a name n that normal attribute lookup does not find is the child of that name, read as node['n'] reads it; names of attributes shadow children; a missing child raises KeyError and not AttributeError, so hasattr never answers False and the default of getattr is never used. Without GetattrChildren such a name raises AttributeError. With attribute_access_for_attrs, node.attrs.n = v makes v the entry n of the attributes node, whichever wrapper is used, every later node.attrs.n reads it, the children stay, and a missing name raises AttributeError.",
  "every class from the tree behaviors with GetattrChildren, every reachable state, every name and every set of names found by normal lookup; for the attributes every class with Nodespaces and Attributes, every history without the insertion methods of Order and direct writes to storages",
  "tests read one child as attribute; the error of a missing one and the shadowing depend on the names of the children and the class at once",
  [B+'common.py: GetattrChildren.__getattr__', B+'attributes.py: Attributes.attrs', 'src/node/utils.py: AttributeAccess'])
P('C58', 'Subscribers of lifecycle events',
  "Subscribers are called exactly once per successful creation, assignment, deletion or detach of an item (not at all while the node is silent), with that event, at a moment when the change is already complete: an added child is in its parent, a removed or detached one is out, after a detach the node notifies again. The call then ends as the subscribers ended: what they raise the call raises, and what they changed stays. Nothing of the change itself is undone, so raising is no veto. The exception is a class with Adopt before Lifecycle: if a subscriber raises AttributeError, KeyError or ValueError on an added node, the node gets its former name and parent back while it stays stored under the key. Failing calls call no subscriber. Changes of attributes call them with a modified event for the owner. Subscribers that do nothing change nothing, and as long as subscribers only call the API, everything that holds in all reachable states also holds in programs with subscribers.",
  "every program as subscriber (it may change any node, raise anything), every class from the tree behaviors with one Lifecycle, every reachable state, key and value; for attributes every class from plain behaviors with one AttributesLifecycle",
  "tests register a subscriber that records the event; what holds when it runs, and what is left when it raises, depends on what the subscriber does and on where Adopt stands in the plumbing order",
  [B+'lifecycle.py: Lifecycle', B+'lifecycle.py: AttributesLifecycle', B+'common.py: Adopt.__setitem__'])
P('C59', 'Composition of behaviors',
  'A class can be made from any choice and order of behaviors around Nodify, with one exception: Cache needs Invalidate or VolatileStorageInvalidate. '
  'Calling __setitem__, __getitem__, __delitem__, __iter__, iterkeys, __init__, detach, copy, deepcopy, invalidate or setdefault on a node runs the hooks of exactly the behaviors of its class that plumb that method, leftmost outermost, '
  'around the method of one behavior: the one that finalizes it, else the leftmost that overrides it, else the leftmost that provides a default. Behaviors that do not declare the method have no influence on it. '
  'All other methods of the mapping and node interfaces are the same for every class.',
  'every list of behaviors, for calls every state, node of a class with Nodify, key and value',
  'There are more classes than tests can compose: 23 behaviors in any choice and order.',
  ['src/node/behaviors/__init__.py', B + 'common.py', B + 'nodify.py', B + 'mapping.py', B + 'storage.py', B + 'cache.py'])

P('C60', 'Loops over a node that is changed meanwhile',
  'A loop over a node gets every key once and in order as long as no key of this node is added or removed; values may be replaced and anything else changed. '
  'On a node with DictStorage, the first step after the number of keys changed raises RuntimeError, as do all later ones, even if all keys were already given. '
  'On a node with OdictStorage the loop goes on with the key that now follows the last one it gave: removed keys are skipped, keys added at the end are visited too (so a loop that always adds never ends), and if the last given key itself was removed the step raises KeyError. '
  'So deleting the children of a node in a loop over the node always fails in the second step. A loop that ended stays ended. keys(), values() and items() cannot run into any of this: they are such loops consumed at once and give what the node holds.',
  'every reachable state and node whose __iter__ is that of a storage without Alias, every sequence of questions to the iterator interleaved with any calls on any nodes',
  'The steps of an iterator can be interleaved with calls in unboundedly many ways.',
  [B + 'storage.py: Storage.__iter__', B + 'mapping.py: keys, values, items, iterkeys', B + 'cache.py: Cache.__iter__'])

P('C61', 'Blocks of a tree lock run as if one after another',
  'Threads that touch a tree only inside with TreeLock(node) blocks (or locktree methods) for its nodes, after the tree was locked for the first time, leave the tree, and know themselves, what they would after running their whole blocks one after another in some order that keeps the order within each thread; '
  'this holds however the work in the blocks is cut into steps, for nested blocks, exceptions, branches and loops that depend on what was read. While a thread is inside a block the tree is what completed blocks left plus the changes of this thread. What every block alone keeps, holds whenever no thread is inside. '
  'So threads calling the mapping API of a node in such blocks get the answers one ordered dictionary gives to their blocks in this order, and counting x[k] = x[k] + 1 in blocks loses nothing. On a tree that was never locked before updates can get lost.',
  'any number of threads starting any time, all schedules, any code within the discipline; for the mapping API all reachable states, all classes of tree behaviors without Reference, and all lists of calls',
  'Schedules are unbounded in number and length and tests cannot control them.',
  ['src/node/locking.py: TreeLock, locktree', B + 'mapping.py', B + 'storage.py'])
P('C62', 'Deserializing a text calls what the text names',
  'The class of a node in a text is whatever can be imported under that name, a function as well as a node class, and deserialize calls it with the keyword arguments the text gives in kw, before anything else happens; so reading a text can have any effect any importable callable has, the effect stays even if deserialize then raises, and a text from an untrusted source must not be deserialized. '
  'Arguments are handed over as JSON gave them: markers for UNSET, UUIDs, objects and nodes are not decoded inside of kw, so a uuid argument arrives as string. Nothing is called if class or name are missing or the class cannot be imported, and what is given by __ob__ is never called. '
  'For texts that name node classes and give no arguments all other properties of deserialization hold unchanged.',
  'every text, every importable callable with any effect, every state and root',
  'Tests deserialize texts the serializer wrote; what other texts do depends on everything that is importable.',
  ['src/node/serializer.py: NodeDecoder.resolve, NodeDecoder.node_factory, NodeDecoder.decode, deserialize'])
P('C63', 'Separate trees do not affect each other',
  'If no object can be reached from two nodes both (along parents, children, attributes, caches and indexes), then no sequence of calls on the one and on whatever is reached from it or created meanwhile changes anything that can be reached from the other, whatever fails on the way, and the two stay separate. '
  'New nodes without parent, deep copies and trees deserialized without root are separate from every node that existed before, and making them leaves every existing node as it was, also if making them fails. '
  'A detached child is not separate from its old tree, since it keeps its parent, and neither is a shallow copy of a node whose storage was used.',
  'every reachable state, all classes and behaviors, all lists of calls; for deserialization every text',
  'A test can only look at the nodes it knows of and at the call sequences it tries.',
  [B + 'mapping.py', B + 'nodify.py', B + 'reference.py', B + 'common.py', B + 'nodespace.py', B + 'fallback.py', B + 'cache.py', B + 'order.py', 'src/node/serializer.py: deserialize'])
P('C64', 'Locking a tree rules out deep copies of it',
  'TreeLock keeps its lock as an attribute of the root node. After a node was locked, for the rest of the program every node which has that root, and every node from which that root can be reached, refuses deepcopy() with TypeError and nothing changes; all nodes with that root get the same lock and nodes with other roots get other locks. '
  'deepcopy() of a node from which no locked root can be reached works as without locks. A shallow copy of a locked root takes over its lock. '
  'If the root has GetattrChildren and was not locked before, TreeLock asks its children for _treelock: it raises their KeyError, or takes the child of that name for the lock.',
  'every program of calls and locks, every object graph',
  'Tests of locking make no copies and tests of copies take no locks; whether a lock can be reached depends on the whole object graph.',
  ['src/node/locking.py: TreeLock', B + 'mapping.py: ClonableMapping', B + 'nodify.py: copy', B + 'common.py: GetattrChildren'])

P('C65', 'The mapping tester reports exactly what fails for a reason',
  'FullMappingTester, run on an empty node whose class is made of a storage, adoption, validation and passive behaviors, or given no node at all, writes a result for each of the twenty functions of the interface in its order. '
  'The result is OK, except for: with node checks and a class that does not adopt, the six tests that look at names of children; for a UUIDAware class, copy. The node ends empty and with the name and parent it had, '
  'except a UUIDAware node tested with node checks, which keeps the name the tester gave it. Limits: a node that is not empty is reported as no mapping; a class that passes need not be a mapping for every key.',
  'every reachable state, every empty node, every such class of node and of children, in any order of behaviors, node checks on or off',
  'The tester is what the tests use: they show its results for some classes, not that it accepts every class it should, nor what it leaves behind.',
  ['src/node/testing/fullmapping.py: FullMappingTester', 'src/node/testing/base.py: BaseTester, ResultWriter'])

P('C66', 'GetattrChildren rules out copies',
  'copy() of a node with GetattrChildren raises KeyError, and so does deepcopy() of any node from which a node with GetattrChildren can be reached over parents, children and attributes, in whatever order deepcopy visits them '
  '(another error if such a node holds something under the name of the special method asked for); in no case is there a copy, and no node changes. If no such node can be reached, copy() and deepcopy() work as C41-C43 say.',
  'every reachable state, every node, every order of visiting, Python before and after 3.11',
  'Tests of GetattrChildren make no copies and tests of copies do not use it; that one such node blocks deep copies of all others in its tree depends on the whole object graph.',
  [B + 'common.py: GetattrChildren', B + 'mapping.py: ClonableMapping', B + 'nodify.py: copy'])

P('C67', 'Caching nodes in concert',
  'However calls of the mapping API and invalidations of keys on several nodes with Cache or without are interleaved (parents and their children, nodes that hold each other), each node answers what it was asked as a dictionary of its own, '
  'its cache never gives a value its storage does not hold, nodes that were asked nothing keep entries and cache, and reordering what is asked of different nodes changes no answer.',
  'every reachable state with caches up to date, every list of calls on any nodes, every interleaving',
  'Tests use one caching node at a time; that two nodes never share or disturb storages and caches is about all interleavings.',
  [B + 'cache.py: Cache', B + 'cache.py: Invalidate', B + 'cache.py: VolatileStorageInvalidate', B + 'storage.py: Storage'])

P('C68', 'Event attributes kept in node attributes',
  "An EventAttribute with storage='attrs' and node.attrs are two ways to one dictionary: what is assigned, deleted or read in one way is seen in the other, in any history; an event is dispatched exactly when an assignment through the attribute changes what reading gives "
  '(or always, with always_dispatch) and with UNSET on deletion, never when the value is refused or node.attrs is used; events are those the default storage would dispatch; the node keeps its children. With attribute_access_for_attrs the attributes can neither be read nor assigned.',
  'every reachable state of a node with attributes of mapping behaviors, every history, every equality of values, every default',
  'Tests assign one attribute once; agreement of two ways to write over all histories, with refusals and deletions in between, is about all sequences.',
  [B + 'events.py: EventAttribute', B + 'attributes.py: Attributes', 'src/node/utils.py: AttributeAccess'])

P('C69', 'Loops over aliased nodes while they are changed',
  "iter() of a node with Alias looks at nothing before it is asked for the first key: calls made before that are seen, also by nodes with a dict storage. From then on, as long as no key is added or removed, the loop yields the aliases of the keys in order, leaving out keys without an alias if the aliaser is a DictAliaser, else ending with the aliaser's exception. If the number of keys of a dict storage changes, the loop gets RuntimeError once and then ends (a plain node goes on raising); with an odict storage it goes on with the next key that has an alias after the last one, or gets KeyError with the key of the storage, not the alias, if that one is gone. After any exception or the end there are no more keys. keys() is this loop consumed at once.",
  "every reachable state, every sequence of operations before and between the steps of the loop, every aliaser",
  "tests exhaust the iterator at once",
  [B+'alias.py: Alias.__iter__', B+'storage.py: Storage.__iter__', B+'mapping.py: EnumerableMapping.keys'])
P('C70', 'Fixed children stay for ever',
  "Once a node with FixedChildren is constructed, no operation on any node, whether it succeeds or fails, changes which children it has, under which keys and in which order: not assignments and deletions on the node, not writing to a storage it has besides, not giving a child another name or parent or putting it into another node, not copying. Every later access of a key returns the very same object or raises KeyError, every later listing returns the same keys, and a loop over the node gets each key once, in order, whatever is called between its steps. keys() is this loop consumed at once.",
  "every reachable state, every sequence of operations on all nodes (also with arguments that do not exist), every sequence of steps of a loop and operations between them",
  "tests try to set and delete one key of one fixed node; nothing tells that no other operation in the package reaches its children",
  [B+'common.py: FixedChildren.__init__', B+'common.py: FixedChildren.__getitem__', B+'common.py: FixedChildren.__iter__', B+'common.py: FixedChildren.__setitem__', B+'common.py: FixedChildren.__delitem__'])
P('C71', 'Reading does not influence what is read later',
  "Item access, get, membership tests, key, value and item listings, filteredvalues, len, path, root, acquire and node_by_path, asked of any nodes in any order and any number of times, each answer as they would have answered in the beginning, and nothing that can be seen changes. This holds in trees whose nodes have neither Cache nor ChildFactory, whatever other behaviors they have (Fallback, Alias, Nodespaces and FixedChildren among them). With caching nodes it holds but for the content of the caches, also where these are stale, as long as Fallback is not right of Cache. It fails for Cache left of Fallback, where reading one node makes a key appear on another, and for ChildFactory right of a storage, where a membership test adds to the keys.",
  "every reachable state without child creating nodes and without Cache left of Fallback, every list of questions to all nodes",
  "tests ask one question after another of a few nodes; that lazily made storages, the fallback search and its counter leave nothing behind has to hold for all sequences",
  [B+'mapping.py: MappingAdopt', B+'fallback.py: Fallback.__getitem__', B+'cache.py: Cache.__getitem__', B+'common.py: ChildFactory.__getitem__', B+'nodify.py: Nodify.path', 'src/node/utils.py: node_by_path'])
P('C72', 'Children can be brought into any order',
  "If all children of an ordered node are nodes held under their names with the node as parent, then for every order of its keys, detaching the children and passing them to insertlast in that order succeeds and the node iterates in that order afterwards. Moving one child with detach and insertbefore or insertafter puts it next to the reference node and keeps the order of the others, and moving it before the child that followed it undoes this. In all cases every key keeps its value, every node its name, parent and uuid, and no other node changes its entries. With Reference this holds, and all nodes are still found by their uuids, if the children have no children themselves. It fails for subtrees: a grandchild of a moved child does not find the root by its uuid any more.",
  "every reachable state, every node with Order over an odict and Adopt, whatever the number of its children, every permutation of its keys; with Reference every tidy history and childless children",
  "tests move one or two children of a fixed tree; that every permutation is reached without losing, duplicating or renaming a child concerns all lengths and all orders",
  [B+'order.py: Order.insertlast, insertbefore, insertafter', B+'nodify.py: Nodify.detach', B+'common.py: Adopt.__setitem__'])
with open('/verif/properties.jsonl', 'w') as f:
    for o in OUT:
        f.write(json.dumps(o) + '\n')
print(len(OUT))
