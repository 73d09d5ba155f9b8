-Q theories Verif
theories/Py.v
theories/Order.v
theories/DaskUtils_Model.v
theories/DaskUtils_Proofs.v
theories/DaskUtils_Props.v
theories/Period_Model.v
theories/Period_Spec.v
theories/Period_Proofs.v
theories/Period_Props.v
theories/Calendar_Model.v
theories/Calendar_Spec.v
theories/Calendar_Proofs.v
theories/Calendar_Fields.v
theories/Split_Model.v
theories/Split_Spec.v
theories/Split_Proofs.v
theories/Split_Main.v
theories/Split_Props.v
theories/PartPath_Model.v
theories/PartPath_Numbers.v
theories/PartPath_Proofs.v
theories/PartPath_Dates.v
theories/PartPath_Props.v
theories/Dict.v
theories/NdArray_Model.v
theories/NdArray_Spec.v
theories/NdArray_Proofs.v
theories/Dataset_Model.v
theories/Dataset_Spec.v
theories/Dataset_Proofs.v
theories/Dataset_Concat.v
theories/Dataset_Main.v
theories/Dataset_Props.v
theories/Dataset_Props2.v
theories/Assemble_Spec.v
theories/Assemble_Proofs.v
theories/TimeSeries_Model.v
theories/TimeSeries_Spec.v
theories/TimeSeries_Proofs.v
theories/TimeSeries_Main.v
theories/TimeSeries_Props.v
theories/Meta_Model.v
theories/Meta_Spec.v
theories/Meta_Props.v
theories/FS_Model.v
theories/FS_Proofs.v
theories/Pool_Model.v
theories/Pool_Proofs.v
theories/Rely_Proofs.v
theories/Storage_Model.v
theories/Storage_Chunks.v
theories/Storage_Spec.v
theories/Storage_Proofs.v
theories/Listing_Model.v
theories/Listing_Spec.v
theories/Listing_Proofs.v
theories/Listing_Expr.v
theories/Listing_Props.v
theories/Collection_Model.v
theories/Collection_Spec.v
theories/Collection_Split.v
theories/Collection_Proofs.v
theories/Collection_State.v
theories/Collection_Prepare.v
theories/Collection_Insert.v
theories/Collection_Select.v
theories/Collection_Load.v
theories/Collection_Round.v
theories/Collection_Total.v
theories/Collection_Create.v
theories/Collection_Example.v
theories/Collection_Props.v
theories/Collection_Crash.v
theories/Crash_Spec.v
theories/Crash_Props.v
theories/Update_Model.v
theories/Update_Spec.v
theories/UpdateOverlap_Spec.v
theories/Storage_Change.v
theories/Update_State.v
theories/Update_Proofs.v
theories/Update_Example.v
theories/Update_Props.v
theories/Overlap_Proofs.v
theories/UpdateOverlap_Proofs.v
theories/Map_Props.v
theories/UpdateOverlap_Props.v
theories/Variable_Spec.v
theories/Variable_Proofs.v
theories/Variable_Props.v
theories/Validate_Spec.v
theories/Validate_Proofs.v
theories/Validate_Props.v
theories/Copy_Spec.v
theories/Copy_Proofs.v
theories/Copy_Props.v
theories/Index_Model.v
theories/Index_Spec.v
theories/Index_Proofs.v
theories/Index_Load.v
theories/Index_Props.v
theories/Sync_Model.v
theories/Sync_Spec.v
theories/Sync_Proofs.v
theories/Sync_Props.v
theories/Tree_Model.v
theories/Tree_Spec.v
theories/Tree_Proofs.v
theories/Tree_Props.v
theories/Walk_Props.v
theories/Compressed_Model.v
theories/Compressed_Spec.v
theories/Compressed_Props.v
theories/Reopen_Spec.v
theories/Reopen_Props.v
theories/View_Model.v
theories/View_Spec.v
theories/View_State.v
theories/View_Proofs.v
theories/View_Sync.v
theories/View_Init.v
theories/View_Example.v
theories/View_Vars.v
theories/View_Props.v
theories/View_Props2.v
theories/View_Load.v
theories/View_Example2.v
theories/View_Props3.v
theories/Immutable_Spec.v
theories/Immutable_Props.v
theories/TimeSeries_Sound.v
theories/Series_Spec.v
theories/Series_Proofs.v
theories/Series_Props.v
theories/View_Map.v
theories/View_Props4.v
theories/View_Update.v
theories/View_Props5.v
theories/View_Overlap.v
theories/View_Props6.v
theories/View_Rely.v
theories/View_Props7.v
theories/Update_Crash.v
theories/Recovery_Props.v
theories/Variable_Crash.v
theories/Recovery_Props2.v
theories/Insert_Retry.v
theories/Retry_Spec.v
theories/Recovery_Props3.v
theories/Insert_Again.v
theories/Recovery_Props4.v
theories/Remote_Model.v
theories/Remote_Proofs.v
theories/Remote_Read.v
theories/Remote_Props.v
theories/Lazy_Model.v
theories/Lazy_Props.v
theories/Repeat_Props.v
theories/Live_Model.v
theories/Live_Spec.v
theories/Live_Proofs.v
theories/Live_Load.v
theories/Live_Props.v
theories/Refuse_Props.v
theories/Together_Props.v
theories/CopyStop_Props.v
theories/Create_Props.v
theories/ViewStop_Props.v
theories/ValidateStop_Props.v
theories/DropStop_Props.v
theories/DropTogether_Props.v
theories/ViewSync_Props.v
theories/SyncStop_Props.v
theories/ViewVarStop_Props.v
theories/ViewUpdateStop_Props.v
theories/ViewRead_Props.v
theories/SyncOpen_Props.v
