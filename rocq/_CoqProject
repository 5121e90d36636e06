-Q theories Verif

theories/Py.v
theories/Odict.v
theories/StrFacts.v
theories/Aliaser.v
theories/Heap.v
theories/Model.v
theories/Classes.v
theories/OdictFacts.v
theories/MonadFacts.v
theories/SpecMapping.v
theories/SpecAlias.v
theories/MappingProofs.v
theories/StorageProofs.v
theories/EndpointProofs.v
theories/WF.v
theories/WFOps.v
theories/Views.v
theories/TreeOps.v
theories/SetEff.v
theories/DelEff.v
theories/DetachEff.v
theories/NewEff.v
theories/Observe.v
theories/ObserveFacts.v
theories/Reach.v
theories/SpecTree.v
theories/MappingProps.v
theories/AliasProofs.v
theories/Play.v
theories/P_Mapping.v
theories/P_Alias.v
theories/Codec.v
theories/CodecProofs.v
theories/Utf8.v
theories/P_Codec.v
theories/Utils.v
theories/SpecUtils.v
theories/UtilsProofs.v
theories/PathProofs.v
theories/TreereprProofs.v
theories/P_Utils.v
theories/Events.v
theories/SpecEvents.v
theories/EventsProofs.v
theories/EventsProofs2.v
theories/EventsProofs3.v
theories/EventsProofs4.v
theories/P_Events.v
theories/Lock.v
theories/SpecLock.v
theories/LockProofs.v
theories/P_Lock.v
theories/SpecCache.v
theories/CacheProofs.v
theories/CacheProofs2.v
theories/P_Cache.v
theories/FrameNew.v
theories/SpecFactory.v
theories/FactoryProofs.v
theories/FixedProofs.v
theories/P_Factories.v
theories/SpecOrder.v
theories/OrderProofs.v
theories/P_Order.v
theories/OpLift.v
theories/AttrsEff.v
theories/SpecPlace.v
theories/PlaceProofs.v
theories/PathTree.v
theories/PlayPlace.v
theories/P_Tree.v
theories/SpecSpaces.v
theories/SpaceProofs.v
theories/PlaySpaces.v
theories/P_Nodespaces.v
theories/SpecValidate.v
theories/ValidateProofs.v
theories/P_Validate.v
theories/FbCount.v
theories/FbSearch.v
theories/SpecFallback.v
theories/FallbackProofs.v
theories/FbThread.v
theories/PlayFallback.v
theories/P_Fallback.v
theories/Quiet.v
theories/SpecLifecycle.v
theories/LifecycleProofs.v
theories/SilenceProofs.v
theories/AttrEvents.v
theories/P_Lifecycle.v
theories/SpecReference.v
theories/RefTree.v
theories/RefSteps.v
theories/RefHistory.v
theories/PlayRef.v
theories/P_Reference.v
theories/SpecNodify.v
theories/NodifyProofs.v
theories/P_Nodify.v
theories/Slots.v
theories/SpecCopy.v
theories/ShallowProofs.v
theories/DeepProofs.v
theories/P_Copy.v
theories/Serializer.v
theories/SpecSerial.v
theories/SerialValues.v
theories/SerialData.v
theories/SerialEncode.v
theories/SerialDecode.v
theories/SerialReach.v
theories/P_Serializer.v
theories/SpecNode.v
theories/NodeMapping.v
theories/P_NodeMapping.v
theories/Dup.v
theories/InvalEff.v
theories/SpecAny.v
theories/AnyMapping.v
theories/P_AnyMapping.v
theories/CacheServe.v
theories/SpecUpdate.v
theories/UpdateProofs.v
theories/P_Update.v
theories/AttrProofs.v
theories/P_Attr.v
theories/Handlers.v
theories/HandlerProofs.v
theories/SpecHandlers.v
theories/P_Handlers.v
theories/Plumber.v
theories/P_Plumbing.v
theories/Loops.v
theories/SpecLoops.v
theories/LoopProofs.v
theories/P_Loops.v
theories/Threads.v
theories/SpecThreads.v
theories/ThreadProofs.v
theories/ThreadCalls.v
theories/ThreadCallProofs.v
theories/P_Threads.v
theories/SerialCall.v
theories/SpecCall.v
theories/SerialCallProofs.v
theories/P_Calls.v
theories/SpecRegion.v
theories/Refs.v
theories/RefsProofs.v
theories/Region.v
theories/RegionOps.v
theories/RegionDeep.v
theories/RegionSerial.v
theories/P_Separate.v
theories/LockCopy.v
theories/SpecLockCopy.v
theories/LockCopyProofs.v
theories/P_LockCopy.v
theories/Tester.v
theories/SpecTester.v
theories/TesterProofs.v
theories/P_Tester.v
theories/AttrCopy.v
theories/SpecAttrCopy.v
theories/AttrCopyProofs.v
theories/P_AttrCopy.v
theories/CacheConcert.v
theories/P_Concert.v
theories/NodeEvents.v
theories/SpecNodeEvents.v
theories/NodeEventsProofs.v
theories/P_NodeEvents.v
theories/AliasLoops.v
theories/SpecAliasLoops.v
theories/AliasLoopProofs.v
theories/P_AliasLoops.v
theories/Lasting.v
theories/FixedLoops.v
theories/LastingProofs.v
theories/P_Lasting.v
theories/Reads.v
theories/ReadProofs.v
theories/P_Reads.v
theories/ReadCache.v
theories/SpecArrange.v
theories/ArrangeProofs.v
theories/P_Arrange.v
