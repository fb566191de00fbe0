-Q theories Verif
theories/AccessErrors_Props.v
theories/AccessFilter_Model.v
theories/AccessFilter_Proofs.v
theories/Access_Proofs.v
theories/Access_Props.v
theories/Access_Spec.v
theories/Agg_Model.v
theories/Agg_Proofs.v
theories/Agg_Props.v
theories/Agg_Spec.v
theories/ArbMerge_Model.v
theories/ArbMerge_Props.v
theories/ArbMerge_Spec.v
theories/Args_Model.v
theories/Args_Proofs.v
theories/Args_Props.v
theories/Breakdown_Props.v
theories/Bridge_Props.v
theories/Catalogue_Model.v
theories/Catalogue_Props.v
theories/Checked_Model.v
theories/Checked_Props.v
theories/Clause_Model.v
theories/Clause_Proofs.v
theories/Clause_Props.v
theories/Clause_Spec.v
theories/Cli_Model.v
theories/Cli_Props.v
theories/Columns_Model.v
theories/Columns_Props.v
theories/Cond_Model.v
theories/Cond_Props.v
theories/ConnDict_Props.v
theories/ConnLoad_Props.v
theories/ConnShown_Props.v
theories/Connections_Model.v
theories/Connections_Props.v
theories/Core_Model.v
theories/CumDate_Model.v
theories/CumDate_Props.v
theories/Cumulative_Model.v
theories/Cumulative_Props.v
theories/Dashboard_Model.v
theories/Dashboard_Props.v
theories/DateText_Props.v
theories/Deps_Model.v
theories/Deps_Props.v
theories/Dispatch_Model.v
theories/Dispatch_Props.v
theories/Duration_Model.v
theories/Duration_Props.v
theories/FieldCheck_Kinds.v
theories/FieldCheck_Model.v
theories/FieldCheck_Proofs.v
theories/FieldCheck_Props.v
theories/FieldCheck_Returns.v
theories/FieldCheck_Spec.v
theories/FilesOrder_Props.v
theories/Files_Model.v
theories/Files_Props.v
theories/FilterDate_Proofs.v
theories/FilterDate_Spec.v
theories/Filter_Model.v
theories/Filter_Proofs.v
theories/Filter_Props.v
theories/Filter_Spec.v
theories/Funnel_Model.v
theories/Funnel_Props.v
theories/JoinAs_Model.v
theories/JoinAs_Proofs.v
theories/JoinAs_Props.v
theories/JoinAs_Spec.v
theories/JoinGraph_Model.v
theories/JoinGraph_Proofs.v
theories/JoinGraph_Props.v
theories/JoinGraph_Scc.v
theories/JoinGraph_Spec.v
theories/JoinOrder_Model.v
theories/JoinOrder_Nx.v
theories/JoinOrder_Proofs.v
theories/JoinOrder_Props.v
theories/JoinOrder_Spec.v
theories/JoinPick_Props.v
theories/JoinSql_Model.v
theories/JoinSql_Proofs.v
theories/JoinSql_Props.v
theories/MappedOnly_Props.v
theories/Mapping_Model.v
theories/Mapping_Proofs.v
theories/Mapping_Props.v
theories/MeasureFilter_Model.v
theories/MeasureFilter_Props.v
theories/MergedDates_Props.v
theories/MergedDerive_Model.v
theories/MergedDerive_Proofs.v
theories/MergedDerive_Props.v
theories/MergedErrors_Props.v
theories/MergedGraph_Model.v
theories/MergedGraph_Props.v
theories/MergedGraph_Spec.v
theories/MergedRows_Proofs.v
theories/MergedRows_Props.v
theories/MergedRows_Spec.v
theories/Merged_Model.v
theories/ModelCheck_Model.v
theories/ModelCheck_Proofs.v
theories/ModelCheck_Props.v
theories/ModelCheck_Spec.v
theories/ModelMap_Model.v
theories/ModelMap_Props.v
theories/Mql_Model.v
theories/Mql_Props.v
theories/Names_Model.v
theories/Names_Props.v
theories/NonAdditive_Model.v
theories/NonAdditive_Props.v
theories/NonAdditive_Spec.v
theories/OrderBy_Model.v
theories/OrderBy_Props.v
theories/PrecDuration_Props.v
theories/PrecSymmetric_Props.v
theories/PrecTime_Model.v
theories/PrecTime_Props.v
theories/PrecTime_Text.v
theories/Prec_Exact.v
theories/Prec_Model.v
theories/Prec_Proofs.v
theories/Prec_Props.v
theories/Prec_Spec.v
theories/Process_Model.v
theories/Process_Props.v
theories/Profile_Model.v
theories/Profile_Props.v
theories/ProjectState_Model.v
theories/ProjectState_Proofs.v
theories/ProjectState_Props.v
theories/ProjectState_Spec.v
theories/PyBase.v
theories/PyCounter.v
theories/PyDate.v
theories/PyGraph.v
theories/PyList.v
theories/PyRefs.v
theories/PyReplace.v
theories/PyRx.v
theories/PySort.v
theories/PyStr.v
theories/Query_Model.v
theories/Query_Proofs.v
theories/Query_Props.v
theories/Query_Spec.v
theories/RawText_Model.v
theories/RawText_Props.v
theories/Rel_Model.v
theories/Rel_Proofs.v
theories/Rel_Props.v
theories/Rel_Spec.v
theories/Repo_Model.v
theories/Repo_Props.v
theories/Resolve_Model.v
theories/Resolve_Props.v
theories/Result_Model.v
theories/Result_Props.v
theories/Runner_Model.v
theories/Runner_Props.v
theories/SeedCheck_Model.v
theories/SeedCheck_Props.v
theories/SeedQuery_Model.v
theories/SeedQuery_Props.v
theories/Seed_Model.v
theories/Seed_Props.v
theories/Session_Props.v
theories/SetFilter_Model.v
theories/SetFilter_Props.v
theories/Set_Model.v
theories/Set_Props.v
theories/Single_Model.v
theories/Single_Props.v
theories/SqlText2_Props.v
theories/SqlText3_Props.v
theories/SqlText_Model.v
theories/SqlText_Props.v
theories/Subst_Model.v
theories/Subst_Props.v
theories/TableName_Model.v
theories/TableName_Props.v
theories/Tier_Model.v
theories/Tier_Props.v
theories/TimeText_Props.v
theories/TimeText_Spec.v
theories/Timeframe_Model.v
theories/Timeframe_Props.v
theories/Timeframe_Spec.v
theories/Users_Model.v
theories/Users_Props.v
theories/Validate_Model.v
theories/Validate_Props.v
theories/ViewCheck_Model.v
theories/ViewCheck_Proofs.v
theories/ViewCheck_Props.v
theories/ViewCheck_Raises.v
theories/ViewCheck_Spec.v
theories/ViewFields_Model.v
theories/ViewFields_Props.v
theories/Week_Model.v
theories/Week_Props.v
theories/Week_Spec.v
