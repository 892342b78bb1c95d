-Q theories Verif
theories/Base.v
theories/Model_AccelFile.v
theories/Model_Alloc.v
theories/Model_Cacti.v
theories/Model_CactiFile.v
theories/Model_Chart.v
theories/Model_Cme.v
theories/Model_Convert.v
theories/Model_Cost.v
theories/Model_DataMove.v
theories/Model_Decouple.v
theories/Model_Engine.v
theories/Model_EvalImc.v
theories/Model_Evaluate.v
theories/Model_Gather.v
theories/Model_Generation.v
theories/Model_Graph.v
theories/Model_Hierarchy.v
theories/Model_HwOpt.v
theories/Model_Imc.v
theories/Model_ImcCacti.v
theories/Model_InstBw.v
theories/Model_Json.v
theories/Model_Latency.v
theories/Model_Layer.v
theories/Model_Links.v
theories/Model_Locality.v
theories/Model_Loma.v
theories/Model_MapFile.v
theories/Model_Mapping.v
theories/Model_Onnx.v
theories/Model_OnnxRun.v
theories/Model_Perm.v
theories/Model_Pipeline.v
theories/Model_Pr.v
theories/Model_Report.v
theories/Model_Run.v
theories/Model_Salsa.v
theories/Model_Search.v
theories/Model_SpatialInt.v
theories/Model_SpatialMap.v
theories/Model_Temporal.v
theories/Model_TemporalStage.v
theories/Model_Text.v
theories/Model_WorkFile.v
theories/Model_Workload.v
theories/Shipped_Hardware.v
theories/Shipped_Workload.v
theories/Spec_AccelFile.v
theories/Spec_Alloc.v
theories/Spec_Cacti.v
theories/Spec_CactiFile.v
theories/Spec_Chart.v
theories/Spec_Cme.v
theories/Spec_Convert.v
theories/Spec_Cost.v
theories/Spec_DataMove.v
theories/Spec_Decouple.v
theories/Spec_EvalEnergy.v
theories/Spec_EvalImc.v
theories/Spec_EvalTime.v
theories/Spec_Evaluate.v
theories/Spec_Gather.v
theories/Spec_Generation.v
theories/Spec_Graph.v
theories/Spec_Hierarchy.v
theories/Spec_HwOpt.v
theories/Spec_Imc.v
theories/Spec_ImcCacti.v
theories/Spec_InstBw.v
theories/Spec_Json.v
theories/Spec_Latency.v
theories/Spec_Layer.v
theories/Spec_Locality.v
theories/Spec_Loma.v
theories/Spec_LomaCount.v
theories/Spec_MapFile.v
theories/Spec_Mapping.v
theories/Spec_Onnx.v
theories/Spec_OnnxRun.v
theories/Spec_Perm.v
theories/Spec_PinStage.v
theories/Spec_Pipeline.v
theories/Spec_Pr.v
theories/Spec_Report.v
theories/Spec_Run.v
theories/Spec_RunFloor.v
theories/Spec_RunOrder.v
theories/Spec_Salsa.v
theories/Spec_Search.v
theories/Spec_SpatialInt.v
theories/Spec_SpatialMap.v
theories/Spec_Temporal.v
theories/Spec_Util.v
theories/Spec_WorkFile.v
theories/Spec_Workload.v
theories/Proof_AccelFile.v
theories/Proof_Alloc.v
theories/Proof_AllocErr.v
theories/Proof_AllocRun.v
theories/Proof_AllocSearch.v
theories/Proof_AllocTile.v
theories/Proof_Balance.v
theories/Proof_Bandwidth.v
theories/Proof_Buffer.v
theories/Proof_BufferBits.v
theories/Proof_Cacti.v
theories/Proof_CactiFile.v
theories/Proof_Capacity.v
theories/Proof_Chart.v
theories/Proof_ChartEval.v
theories/Proof_ChartExample.v
theories/Proof_Cme.v
theories/Proof_CmeLaws.v
theories/Proof_CmeMore.v
theories/Proof_Convert.v
theories/Proof_CostExample.v
theories/Proof_DataMove.v
theories/Proof_Decouple.v
theories/Proof_DecoupleTotals.v
theories/Proof_Elements.v
theories/Proof_Energy.v
theories/Proof_Engine.v
theories/Proof_EvalBuild.v
theories/Proof_EvalEnergy.v
theories/Proof_EvalEnergyExample.v
theories/Proof_EvalExample.v
theories/Proof_EvalHardware.v
theories/Proof_EvalImc.v
theories/Proof_EvalMapping.v
theories/Proof_EvalPrepare.v
theories/Proof_EvalTiles.v
theories/Proof_EvalTime.v
theories/Proof_EvalTimeExample.v
theories/Proof_EvalTimes.v
theories/Proof_EvalTotal.v
theories/Proof_Gather.v
theories/Proof_Gemm.v
theories/Proof_Generation.v
theories/Proof_Graph.v
theories/Proof_Hierarchy.v
theories/Proof_HwOpt.v
theories/Proof_Imc.v
theories/Proof_ImcCacti.v
theories/Proof_ImcCactiExample.v
theories/Proof_InstBw.v
theories/Proof_InstBwExample.v
theories/Proof_Json.v
theories/Proof_JsonExample.v
theories/Proof_Latency.v
theories/Proof_Limited.v
theories/Proof_Links.v
theories/Proof_Loading.v
theories/Proof_Locality.v
theories/Proof_LomaCount.v
theories/Proof_LomaFactors.v
theories/Proof_LomaLoops.v
theories/Proof_LomaOnes.v
theories/Proof_LomaPinLimit.v
theories/Proof_LomaPinPower.v
theories/Proof_LomaPinStage.v
theories/Proof_LomaPins.v
theories/Proof_LomaRun.v
theories/Proof_MapFile.v
theories/Proof_Mapping.v
theories/Proof_MappingBuild.v
theories/Proof_MappingExample.v
theories/Proof_MappingLoops.v
theories/Proof_MappingMain.v
theories/Proof_MappingProps.v
theories/Proof_Node.v
theories/Proof_Onnx.v
theories/Proof_OnnxCourse.v
theories/Proof_OnnxExample.v
theories/Proof_OnnxRun.v
theories/Proof_Ordering.v
theories/Proof_Outer.v
theories/Proof_Perm.v
theories/Proof_PermCore.v
theories/Proof_PermProps.v
theories/Proof_Pipeline.v
theories/Proof_Ports.v
theories/Proof_Pr.v
theories/Proof_Reduce.v
theories/Proof_Relevancy.v
theories/Proof_Report.v
theories/Proof_Run.v
theories/Proof_RunBound.v
theories/Proof_RunChain.v
theories/Proof_RunCourse.v
theories/Proof_RunExample.v
theories/Proof_RunFloor.v
theories/Proof_RunFloorExample.v
theories/Proof_RunGeneration.v
theories/Proof_RunHardware.v
theories/Proof_RunLayer.v
theories/Proof_RunOrder.v
theories/Proof_RunOrderExample.v
theories/Proof_RunRequest.v
theories/Proof_RunSearch.v
theories/Proof_RunSpatial.v
theories/Proof_Salsa.v
theories/Proof_Search.v
theories/Proof_SearchExample.v
theories/Proof_SearchGiven.v
theories/Proof_Sharing.v
theories/Proof_SpatialInt.v
theories/Proof_SpatialMap.v
theories/Proof_Temporal.v
theories/Proof_TemporalRun.v
theories/Proof_TemporalStage.v
theories/Proof_Text.v
theories/Proof_Util.v
theories/Proof_UtilExample.v
theories/Proof_Window.v
theories/Proof_WorkFile.v
theories/Proof_WorkFileExample.v
theories/Proof_Workload.v
theories/Prop_AccelFile.v
theories/Prop_Alloc.v
theories/Prop_Cacti.v
theories/Prop_CactiFile.v
theories/Prop_Chart.v
theories/Prop_Cme.v
theories/Prop_Convert.v
theories/Prop_DataMove.v
theories/Prop_Decouple.v
theories/Prop_Energy.v
theories/Prop_EvalEnergy.v
theories/Prop_EvalImc.v
theories/Prop_EvalTime.v
theories/Prop_Evaluate.v
theories/Prop_Gather.v
theories/Prop_Generation.v
theories/Prop_Hierarchy.v
theories/Prop_HwOpt.v
theories/Prop_Imc.v
theories/Prop_ImcCacti.v
theories/Prop_InstBw.v
theories/Prop_Json.v
theories/Prop_Latency.v
theories/Prop_Layer.v
theories/Prop_Links.v
theories/Prop_Locality.v
theories/Prop_Loma.v
theories/Prop_LomaCount.v
theories/Prop_MapFile.v
theories/Prop_Mapping.v
theories/Prop_Onnx.v
theories/Prop_OnnxRun.v
theories/Prop_Perm.v
theories/Prop_PinStage.v
theories/Prop_Pipeline.v
theories/Prop_Pr.v
theories/Prop_Reduce.v
theories/Prop_Report.v
theories/Prop_Run.v
theories/Prop_RunFloor.v
theories/Prop_RunOrder.v
theories/Prop_Salsa.v
theories/Prop_Search.v
theories/Prop_SpatialInt.v
theories/Prop_SpatialMap.v
theories/Prop_Temporal.v
theories/Prop_Util.v
theories/Prop_WorkFile.v
theories/Prop_Workload.v
