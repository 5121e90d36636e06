(** Node classes: src/node/base.py and the classes composed in the tests. *)
From Verif Require Import Py Odict Aliaser Heap Model.

Definition mkclass (n : string) (bs : list behavior) : classdef :=
  Class n bs [] [] None false "node.behaviors.attributes.NodeAttributes" true None.

(** base.py 16-20 *)
Definition AbstractNode_behs := [Adopt; Nodify].
Definition AbstractNode := mkclass "node.base.AbstractNode" AbstractNode_behs.
(** base.py 23-36 *)
Definition BaseNode_behs := [NodeChildValidate; Adopt; AsAttrAccess; DefaultInit; Nodify; DictStorage].
Definition BaseNode := mkclass "node.base.BaseNode" BaseNode_behs.
(** base.py 39-52 *)
Definition OrderedNode_behs := [NodeChildValidate; Adopt; AsAttrAccess; DefaultInit; Nodify; OdictStorage].
Definition OrderedNode := mkclass "node.base.OrderedNode" OrderedNode_behs.
(** base.py 55-86, Node and AttributedNode *)
Definition Node_behs := [NodeChildValidate; Nodespaces; Adopt; Attributes; Reference; Order;
                         AsAttrAccess; DefaultInit; Nodify; OdictStorage].
Definition Node := mkclass "node.base.Node" Node_behs.
Definition AttributedNode := mkclass "node.base.AttributedNode" Node_behs.
(** attributes.py 16-38; its own __init__ is listed as DefaultInit *)
Definition NodeAttributes_behs := [NodeChildValidate; Adopt; DefaultInit; Nodify; OdictStorage].
Definition NodeAttributes :=
  Class "node.behaviors.attributes.NodeAttributes" NodeAttributes_behs [] [] None true
        "node.behaviors.attributes.NodeAttributes" true None.

(** Classes composed by the tests (tests/test_*.py) *)
Definition ReferenceNode := mkclass "ReferenceNode" [Adopt; Reference; DefaultInit; Nodify; OdictStorage].
Definition OrderableNode := mkclass "OrderableNode" [Adopt; Order; DefaultInit; Nodify; OdictStorage].
Definition OrderReferenceNode := mkclass "OrderReferenceNode" [Adopt; Order; Reference; DefaultInit; Nodify; OdictStorage].
Definition CacheNode := mkclass "CacheNode" [Adopt; Cache; Invalidate; DefaultInit; Nodify; OdictStorage].
Definition CacheVolatileNode := mkclass "CacheVolatileNode" [Adopt; Cache; VolatileStorageInvalidate; DefaultInit; Nodify; OdictStorage].
Definition InvalidateNode := mkclass "InvalidateNode" [Adopt; Invalidate; DefaultInit; Nodify; OdictStorage].
Definition VolatileNode := mkclass "VolatileNode" [Adopt; VolatileStorageInvalidate; DefaultInit; Nodify; OdictStorage].
Definition LifecycleNode_behs := [Nodespaces; Attributes; Lifecycle; DefaultInit; Nodify; DictStorage].
Definition LifecycleNode :=
  Class "LifecycleNode" LifecycleNode_behs [] [] None false "LifecycleNodeAttributes" true None.
Definition LifecycleNodeAttributes_behs := [AttributesLifecycle; NodeChildValidate; Adopt; DefaultInit; Nodify; OdictStorage].
Definition LifecycleNodeAttributes :=
  Class "LifecycleNodeAttributes" LifecycleNodeAttributes_behs [] [] None true
        "LifecycleNodeAttributes" true None.
Definition UUIDNode := mkclass "UUIDNode" [Adopt; DefaultInit; Nodify; OdictStorage; UUIDAware].
Definition FallbackNode := mkclass "FallbackNode" [Fallback; Adopt; DefaultInit; Nodify; OdictStorage].
Definition FallbackNodeAttributes_behs := [Nodespaces; Fallback; Adopt; DefaultInit; Nodify; OdictStorage].

Definition std_classes : gmap string classdef :=
  list_to_map (map (fun c => (c_name c, c))
    [AbstractNode; BaseNode; OrderedNode; Node; AttributedNode; NodeAttributes;
     ReferenceNode; OrderableNode; OrderReferenceNode; CacheNode; CacheVolatileNode;
     InvalidateNode; VolatileNode; LifecycleNode; LifecycleNodeAttributes; UUIDNode;
     FallbackNode]).

(** A process that has imported the classes and created nothing yet. *)
Definition st0 : st := St ∅ ∅ ∅ 0 1 [] (-1) std_classes.
