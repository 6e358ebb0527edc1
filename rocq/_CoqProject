-Q theories Verif
theories/Py.v
theories/Tlv.v
theories/Float.v
theories/Core.v
theories/TlvProofs.v
theories/FloatProofs.v
theories/CoreProofs.v
theories/Spec.v
theories/PropsTlv.v
theories/PropsCore.v
theories/Flic.v
theories/WireSpec.v
theories/FlicProofs.v
theories/PropsFlic.v
theories/PropsWire.v
theories/PropsExists.v
theories/Crypto.v
theories/CryptoProofs.v
theories/PropsCrypto.v
theories/PropsSealing.v
theories/Optimizer.v
theories/OptimizerProofs.v
theories/Tree.v
theories/TreeSpec.v
theories/TreeProofs.v
theories/TreeFacts.v
theories/PropsOptimizer.v
theories/PropsTree.v
theories/ChunkProofs.v
theories/PropsChunk.v
theories/SizeProofs.v
theories/BuildProofs.v
theories/SizeNode.v
theories/PropsSize.v
theories/BuildTotal.v
theories/PropsBuild.v
theories/Store.v
theories/StoreSpec.v
theories/StoreProofs.v
theories/PropsStore.v
theories/Traversal.v
theories/TraversalSpec.v
theories/TraversalProofs.v
theories/PropsTraversal.v
theories/EndSpec.v
theories/EndProofs.v
theories/ReadProofs.v
theories/PropsEnd.v
theories/PropsDir.v
theories/PropsIntegrity.v
theories/PropsAuth.v
theories/PropsNonce.v
theories/PropsWaste.v
theories/Uri.v
theories/PropsUri.v
theories/PropsLink.v
theories/Net.v
theories/PropsNet.v
theories/Apps.v
theories/PropsApps.v
theories/PropsNames.v
theories/PropsOptions.v
theories/PropsWriter.v
theories/Graph.v
theories/PropsGraph.v
theories/GraphBuild.v
theories/PropsGraphBuild.v
theories/Cli.v
theories/PropsCli.v
theories/PropsCliRead.v
theories/PropsNoKey.v
theories/Eq.v
theories/NodeEq.v
theories/PropsEq.v
theories/Iso.v
theories/PropsIso.v
theories/KeyGen.v
theories/PropsKeyGen.v
theories/PropsNodeEq.v
theories/Repr.v
theories/PropsRepr.v
theories/Kdf.v
theories/PropsKdf.v
theories/Iter.v
theories/PropsIter.v
theories/Pem.v
theories/PropsPem.v
theories/Digests.v
theories/Vectors.v
theories/Stream.v
theories/PropsStream.v
theories/Shared.v
theories/PropsShared.v
