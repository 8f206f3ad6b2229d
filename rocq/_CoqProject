-Q theories Verif
theories/Base.v
theories/AD_Model.v
theories/AD_Query_Model.v
theories/AD_Spec.v
theories/AD_Proofs.v
theories/AD_CT_Proofs.v
theories/AD_PMF_Proofs.v
theories/AD_More_Proofs.v
theories/AD_Tables_Proofs.v
theories/AD_Examples.v
theories/AD_Properties.v
theories/AD_Given_Properties.v
theories/AD_Unknown_Properties.v
theories/Graph_Model.v
theories/Graph_Spec.v
theories/Graph_History_Model.v
theories/Graph_Paths_Proofs.v
theories/Graph_Search_Proofs.v
theories/Graph_Build_Proofs.v
theories/Graph_Dsep_Proofs.v
theories/Graph_History_Proofs.v
theories/Graph_Properties.v
theories/MB_Model.v
theories/MB_Spec.v
theories/MB_Cache_Proofs.v
theories/IPCMB_Proofs.v
theories/DAG_Sep_Proofs.v
theories/IPCMB_Exact_Proofs.v
theories/IAMB_Proofs.v
theories/DSep_Model.v
theories/DSep_Spec.v
theories/DSep_Proofs.v
theories/PCMB_Model.v
theories/PCMB_Proofs.v
theories/MB_Properties.v
theories/MB_Examples.v
theories/Key_Model.v
theories/Key_Spec.v
theories/Key_Proofs.v
theories/PMF_Model.v
theories/Prob_Spec.v
theories/Info_Spec.v
theories/Prob_Proofs.v
theories/PMF_Proofs.v
theories/PMF_Cond_Proofs.v
theories/Info_Proofs.v
theories/PMF_Spec.v
theories/PMF_Data_Proofs.v
theories/Table_Spec.v
theories/Table_Proofs.v
theories/PMF_Properties.v
theories/PMF_Refused_Properties.v
theories/GTest_Model.v
theories/GTest_Spec.v
theories/SameInfo_Proofs.v
theories/GTest_Tables_Proofs.v
theories/GTest_DoF_Proofs.v
theories/GTest_Cache_Proofs.v
theories/GTest_Impl_Proofs.v
theories/GTest_AD_Proofs.v
theories/GTest_Proofs.v
theories/GTest_More_Proofs.v
theories/GTest_Properties.v
theories/Instances_Model.v
theories/Instances_Properties.v
theories/BN_Model.v
theories/BN_Spec.v
theories/BN_Order_Proofs.v
theories/BN_Final_Proofs.v
theories/BN_Sum_Proofs.v
theories/BN_Joint_Proofs.v
theories/BN_Table_Proofs.v
theories/BN_Sub_Proofs.v
theories/BN_Partial_Proofs.v
theories/BN_Sampling_Spec.v
theories/BN_Sampling_Proofs.v
theories/BN_More_Proofs.v
theories/BN_Properties.v
theories/Matrix_Model.v
theories/Matrix_Spec.v
theories/Matrix_Proofs.v
theories/Matrix_Properties.v
theories/Split_Model.v
theories/Split_Properties.v
theories/Text_Model.v
theories/Text_Proofs.v
theories/FS_Model.v
theories/Storage_Model.v
theories/FS_Proofs.v
theories/Storage_Spec.v
theories/Storage_Proofs.v
theories/Storage_Properties.v
theories/Exds_Proofs.v
theories/Exds_Success.v
theories/Exds_Concurrent.v
theories/Exds_Properties.v
theories/Recovery_Properties.v
theories/Experiment_Model.v
theories/Experiment_Proofs.v
theories/Run_Proofs.v
theories/Experiment_Properties.v
theories/Sources_Model.v
theories/Sources_Proofs.v
theories/Sources_Properties.v
theories/Select_Model.v
theories/Select_Properties.v
theories/CTable_Model.v
theories/CTable_Properties.v
theories/IGt_Model.v
theories/IGt_Properties.v
theories/CMI_Model.v
theories/CMI_Properties.v
theories/MB_Log_Spec.v
theories/MB_Log_Proofs.v
theories/IAMB_Log_Proofs.v
theories/MB_Log_Properties.v
theories/MB_Sim_Proofs.v
theories/Learn_Model.v
theories/Learn_Properties.v
theories/Rcv_Model.v
theories/Rcv_Spec.v
theories/Rcv_Proofs.v
theories/Rcv_Dok_Proofs.v
theories/Rcv_Properties.v
theories/Bif_Model.v
theories/Bif_Properties.v
theories/BifCache_Properties.v
theories/CIResult_Model.v
theories/CIResult_Properties.v
theories/Logs_Model.v
theories/Logs_Properties.v
theories/Debug_Model.v
theories/Debug_Properties.v
theories/Command_Model.v
theories/Command_Properties.v
theories/Tags_Properties.v
theories/BifText_Model.v
theories/BifText_Spec.v
theories/BifText_Proofs.v
theories/BifText_Properties.v
theories/Heap_Model.v
theories/Heap_Spec.v
theories/Heap_Proofs.v
theories/Heap_Properties.v
theories/CTHeap_Model.v
theories/CTHeap_Spec.v
theories/CTHeap_Proofs.v
theories/CTHeap_Properties.v
theories/Shared_Model.v
theories/Shared_Spec.v
theories/Shared_Proofs.v
theories/Shared_Properties.v
theories/DMQuery_Model.v
theories/DMQuery_Spec.v
theories/DMQuery_Properties.v
theories/PMFEq_Model.v
theories/PMFEq_Spec.v
theories/PMFEq_Proofs.v
theories/PMFEq_Properties.v
theories/BNObj_Model.v
theories/BNObj_Proofs.v
theories/BNObj_Properties.v
theories/PD_Model.v
theories/PD_Properties.v
theories/RunObj_Model.v
theories/RunObj_Properties.v
theories/ADFile_Model.v
theories/ADFile_Spec.v
theories/ADFile_Proofs.v
theories/ADFile_Properties.v
theories/DoFObj_Model.v
theories/DoFObj_Spec.v
theories/DoFObj_Proofs.v
theories/DoFObj_Properties.v
theories/Render_Model.v
theories/Render_Spec.v
theories/Render_Proofs.v
theories/Render_Properties.v
theories/Paths_Model.v
theories/Paths_Spec.v
theories/Paths_Properties.v
theories/Oracle_Model.v
theories/Oracle_Spec.v
theories/Oracle_Properties.v
theories/AD_Session_Model.v
theories/AD_Session_Properties.v
theories/ExdsObj_Model.v
theories/ExdsObj_Proofs.v
theories/ExdsObj_Properties.v
theories/MPPrint_Model.v
theories/MPPrint_Properties.v
theories/ADServer_Model.v
theories/ADServer_Properties.v
theories/DsepAnalysis_Model.v
theories/DsepAnalysis_Proofs.v
theories/DsepAnalysis_Properties.v
theories/DcmiRuns_Model.v
theories/DcmiRuns_Properties.v
theories/DsepRuns_Model.v
theories/DsepRuns_Properties.v
theories/DcmiSummary_Model.v
theories/DcmiSummary_Properties.v
theories/Restructure_Model.v
theories/Restructure_Spec.v
theories/Restructure_Proofs.v
theories/Restructure_Properties.v
theories/GtestEnum_Model.v
theories/GtestEnum_Spec.v
theories/GtestEnum_Proofs.v
theories/GtestEnum_Count_Proofs.v
theories/GtestEnum_Report_Proofs.v
theories/GtestEnum_Properties.v
theories/CTGroup_Model.v
theories/CTGroup_Properties.v
theories/Validate_Model.v
theories/Validate_Properties.v
