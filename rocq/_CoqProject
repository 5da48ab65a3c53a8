-Q theories Verif
theories/Model/Types.v
theories/Model/Mesh.v
theories/Model/Attrs.v
theories/Model/EdgeContainer.v
theories/Model/Node.v
theories/Model/SLayer.v
theories/Model/DLayer.v
theories/Model/Graph.v
theories/Spec/AbstractGraph.v
theories/Spec/GraphHistory.v
theories/Spec/EdgeLog.v
theories/Proof/Arith.v
theories/Proof/Keys.v
theories/Proof/EdgeLogP.v
theories/Proof/SLayerP.v
theories/Proof/SLayerMerge.v
theories/Proof/DLayerP.v
theories/Proof/DLayerOps.v
theories/Proof/GraphRep.v
theories/Proof/GraphEdges.v
theories/Proof/GraphAttrs.v
theories/Proof/GraphNodes.v
theories/Proof/GraphRemove.v
theories/Proof/GraphMerge.v
theories/Proof/GraphSim.v
theories/Spec/GraphObs.v
theories/Proof/IdsP.v
theories/Proof/GraphObsP.v
theories/Proof/GraphProps.v
theories/Proof/GraphProps2.v
theories/Proof/GraphProps3.v
theories/Properties/P01_Ids.v
theories/Properties/P02_EdgeContainer.v
theories/Proof/GraphDyn.v
theories/Proof/GraphCounts.v
theories/Properties/ExGraph.v
theories/Properties/P03_Graph.v
theories/Spec/LayerLog.v
theories/Proof/LayerLogP.v
theories/Proof/LayerLogP2.v
theories/Properties/P04_Layer.v
theories/Properties/P05_Dynamic.v
theories/Proof/StaleP.v
theories/Proof/StaleP2.v
theories/Properties/P06_Stale.v
theories/Proof/CloneP.v
theories/Properties/P07_Clone.v
theories/Model/Search.v
theories/Spec/Search.v
theories/Proof/SearchP.v
theories/Proof/SearchP2.v
theories/Proof/SearchP3.v
theories/Proof/SearchP4.v
theories/Properties/P08_Search.v
theories/Model/Views.v
theories/Spec/Views.v
theories/Proof/MatrixP.v
theories/Proof/MatrixP2.v
theories/Proof/ViewP.v
theories/Properties/P09_Views.v
theories/Spec/MeshSpec.v
theories/Proof/MeshP.v
theories/Properties/P10_Mesh.v
theories/Model/Binary.v
theories/Spec/BinarySpec.v
theories/Proof/BinaryP.v
theories/Proof/BinarySafe.v
theories/Model/Versioning.v
theories/Model/AttrCodec.v
theories/Spec/AttrSpec.v
theories/Spec/FileSpec.v
theories/Proof/SaveLoad.v
theories/Proof/AttrP.v
theories/Proof/AttrSafe.v
theories/Proof/FileP.v
theories/Properties/P11_Binary.v
theories/Properties/P12_Files.v
theories/Model/Registry.v
theories/Spec/RegistrySpec.v
theories/Proof/RegistryP.v
theories/Model/GraphCodec.v
theories/Proof/GraphCodecSafe.v
theories/Spec/ProgramSpec.v
theories/Proof/GraphCodecP.v
theories/Properties/P13_Registry.v
theories/Proof/GraphMesh.v
theories/Spec/GraphFileSpec.v
theories/Proof/TransferP.v
theories/Properties/P14_GraphFiles.v
theories/Model/Numbers.v
theories/Model/BBox.v
theories/Spec/BoxSpec.v
theories/Proof/BBoxP.v
theories/Properties/P15_Boxes.v
theories/Model/Color.v
theories/Spec/ColorSpec.v
theories/Proof/FloatP.v
theories/Proof/ColorP.v
theories/Properties/P16_Colors.v
theories/Model/Zmq.v
theories/Spec/ZmqSpec.v
theories/Proof/ZmqP.v
theories/Properties/P17_Receiver.v
theories/Proof/LayerRep.v
theories/Proof/UpdateP.v
theories/Properties/P18_Update.v
theories/Proof/StatusFrame.v
theories/Proof/MergeP1.v
theories/Proof/MergeP2.v
theories/Proof/MergeP3.v
theories/Proof/MergeP4.v
theories/Proof/MergeP5.v
theories/Proof/MergeP6.v
theories/Spec/MergeSpec.v
theories/Proof/MergeP7.v
theories/Properties/P19_Merge.v
theories/Properties/P20_Limits.v
theories/Proof/LayerClone.v
theories/Proof/QueryP.v
theories/Proof/QueryP2.v
theories/Properties/P21_Queries.v
theories/Spec/EqSpec.v
theories/Proof/EqP.v
theories/Properties/P22_Equality.v
theories/Spec/LegacySpec.v
theories/Proof/LegacyP.v
theories/Proof/LegacyFileP.v
theories/Properties/P23_Legacy.v
theories/Model/Json.v
theories/Model/Rotation.v
theories/Model/JsonCodec.v
theories/Model/GraphJson.v
theories/Spec/JsonSpec.v
theories/Spec/RotationSpec.v
theories/Proof/JsonNum.v
theories/Proof/JsonP.v
theories/Proof/JsonAttrP.v
theories/Proof/GraphJsonP.v
theories/Proof/RotationP.v
theories/Properties/P24_Json.v
theories/Properties/P25_Rotation.v
theories/Model/Queries.v
theories/Model/Names.v
theories/Model/Logger.v
theories/Spec/LoggerSpec.v
theories/Proof/NamesP.v
theories/Proof/LoggerP.v
theories/Proof/LoggerP2.v
theories/Properties/P26_LayerQueries.v
theories/Properties/P27_Names.v
theories/Properties/P28_Logger.v
theories/Spec/OldJsonSpec.v
theories/Proof/OldJsonP.v
theories/Proof/OldJsonP2.v
theories/Spec/JsonDocSpec.v
theories/Proof/JsonDocP.v
theories/Properties/P29_OldJson.v
theories/Properties/P30_JsonDocs.v
theories/Model/Iterators.v
theories/Spec/IterSpec.v
theories/Proof/IterP.v
theories/Properties/P31_Iterators.v
theories/Model/Fit.v
theories/Properties/P32_Fit.v
theories/Spec/MirrorSpec.v
theories/Proof/MirrorP.v
theories/Proof/MirrorP2.v
theories/Proof/MirrorP3.v
theories/Proof/MirrorP4.v
theories/Properties/P33_Mirror.v
theories/Model/MeshMatrix.v
theories/Spec/MeshMatrixSpec.v
theories/Proof/MeshMatrixP.v
theories/Properties/P34_MeshMatrix.v
theories/Spec/MessageSpec.v
theories/Proof/MessageP.v
theories/Proof/MessageP2.v
theories/Properties/P35_Messages.v
theories/Proof/RainbowP.v
theories/Proof/RainbowP2.v
theories/Properties/P36_Rainbow.v
theories/Spec/CutSpec.v
theories/Proof/PrefixP.v
theories/Properties/P37_Cut.v
theories/Model/Session.v
theories/Spec/SessionSpec.v
theories/Proof/SessionP.v
theories/Properties/P38_Session.v
theories/Model/Disk.v
theories/Spec/DiskSpec.v
theories/Proof/DiskP.v
theories/Properties/P39_Disk.v
theories/Spec/TripSpec.v
theories/Proof/TightP.v
theories/Proof/TripP.v
theories/Properties/P40_Trips.v
theories/Spec/StreamSpec.v
theories/Properties/P41_Stream.v
theories/Spec/NumberSpec.v
theories/Proof/RoundP.v
theories/Proof/RoundP2.v
theories/Properties/P42_Numbers.v
theories/Model/ZmqLife.v
theories/Spec/ZmqLifeSpec.v
theories/Proof/ZmqLifeP.v
theories/Properties/P43_ReceiverLife.v
theories/Model/PyConvert.v
theories/Spec/ConvertSpec.v
theories/Proof/ConvertP.v
theories/Properties/P44_Networkx.v
theories/Model/Torch.v
theories/Spec/TorchSpec.v
theories/Proof/TorchP.v
theories/Properties/P45_Torch.v
theories/Model/Expand.v
theories/Spec/ExpandSpec.v
theories/Proof/ExpandP.v
theories/Proof/ExpandP2.v
theories/Proof/ExpandP3.v
theories/Properties/P46_Expand.v
theories/Model/Repartition.v
theories/Spec/RepartitionSpec.v
theories/Proof/RepartitionP.v
theories/Proof/RepartitionP2.v
theories/Proof/RepartitionP3.v
theories/Properties/P47_Repartition.v
theories/Model/Label.v
theories/Spec/LabelSpec.v
theories/Proof/LabelP.v
theories/Properties/P48_Label.v
theories/Proof/RoomsMeshP.v
theories/Properties/P49_RoomsMesh.v
theories/Model/Collection.v
theories/Spec/CollectionSpec.v
theories/Proof/CollectionP.v
theories/Properties/P50_Collection.v
theories/Model/TorchLayer.v
theories/Proof/TorchLayerP.v
theories/Properties/P51_TorchLayer.v
theories/Model/Meshes.v
theories/Spec/MeshesSpec.v
theories/Properties/P52_Meshes.v
