-Q theories Verif
theories/AddProps_Model.v
theories/AddProps_Proofs.v
theories/AddProps_Props.v
theories/AddProps_Spec.v
theories/Again_Proofs.v
theories/Agree_Proofs.v
theories/Agree_Props.v
theories/Agree_Spec.v
theories/Bump_Model.v
theories/Bump_Proofs.v
theories/Bump_Props.v
theories/Bump_Spec.v
theories/Cache_Model.v
theories/Cache_Proofs.v
theories/Cache_Props.v
theories/Cache_Spec.v
theories/Calls_Proofs.v
theories/Capture_Model.v
theories/Capture_Proofs.v
theories/Capture_Props.v
theories/Capture_Spec.v
theories/Change_Model.v
theories/Change_Proofs.v
theories/Change_Props.v
theories/Change_Spec.v
theories/Codec_Model.v
theories/Codec_Proofs.v
theories/Codec_Props.v
theories/Codec_Spec.v
theories/CompCall_Proofs.v
theories/CompMap_Proofs.v
theories/CompMap_Props.v
theories/CompShift_Proofs.v
theories/Comp_Model.v
theories/Comp_Proofs.v
theories/Comp_Props.v
theories/Comp_Spec.v
theories/Coords_Model.v
theories/Coords_Proofs.v
theories/Coords_Props.v
theories/Coords_Spec.v
theories/Crosslink_Model.v
theories/Crosslink_Proofs.v
theories/Crosslink_Props.v
theories/Crosslink_Spec.v
theories/Dates_Model.v
theories/Dates_Proofs.v
theories/Dates_Props.v
theories/Dates_Spec.v
theories/Df_Model.v
theories/Df_Proofs.v
theories/Df_Props.v
theories/Df_Spec.v
theories/Dive_Proofs.v
theories/Docs_Capture.v
theories/Docs_Edges.v
theories/Docs_Filter.v
theories/Docs_Lasso.v
theories/Docs_Pandel.v
theories/Docs_Parse.v
theories/Docs_Pmod.v
theories/Docs_Pointer.v
theories/Docs_Pstep.v
theories/Docs_Sheets.v
theories/Docs_Utils.v
theories/Docs_Visit.v
theories/Enum_Model.v
theories/Enum_Proofs.v
theories/Enum_Props.v
theories/Enum_Spec.v
theories/Env_Model.v
theories/Env_Proofs.v
theories/Env_Props.v
theories/Env_Spec.v
theories/Excel_Model.v
theories/Excel_Proofs.v
theories/Excel_Props.v
theories/Excel_Spec.v
theories/ExpMoves_Model.v
theories/ExpMoves_Proofs.v
theories/ExpMoves_Props.v
theories/ExpMoves_Spec.v
theories/Expand_Proofs.v
theories/FileRef_Props.v
theories/FileUrl_Model.v
theories/FileUrl_Proofs.v
theories/FileUrl_Props.v
theories/FileUrl_Spec.v
theories/Help_Model.v
theories/Help_Props.v
theories/Jschema_Model.v
theories/Jschema_Proofs.v
theories/Jschema_Props.v
theories/Jschema_Spec.v
theories/Json.v
theories/JsonPointer_Model.v
theories/JsonPointer_Proofs.v
theories/JsonPointer_Props.v
theories/JsonPointer_Spec.v
theories/Kinds_Model.v
theories/Kinds_Proofs.v
theories/Kinds_Props.v
theories/Kinds_Spec.v
theories/Lasso_Model.v
theories/Lasso_Proofs.v
theories/Lasso_Props.v
theories/Lasso_Spec.v
theories/Listed_Model.v
theories/Listed_Props.v
theories/Listing_Model.v
theories/Listing_Proofs.v
theories/Listing_Props.v
theories/Listing_Spec.v
theories/Macro_Model.v
theories/Macro_Proofs.v
theories/Macro_Props.v
theories/Macro_Spec.v
theories/Meaning_Proofs.v
theories/Meaning_Props.v
theories/Meaning_Spec.v
theories/Named_Model.v
theories/Named_Props.v
theories/OsPath_Model.v
theories/OsPath_Proofs.v
theories/OsPath_Props.v
theories/OsPath_Spec.v
theories/Pandel_Model.v
theories/Pandel_Proofs.v
theories/Pandel_Props.v
theories/Pandel_Spec.v
theories/Parse_Model.v
theories/Parse_Proofs.v
theories/Parse_Props.v
theories/Parse_Spec.v
theories/Paths_Model.v
theories/Paths_Proofs.v
theories/Paths_Props.v
theories/Paths_Spec.v
theories/Plugins_Model.v
theories/Plugins_Proofs.v
theories/Plugins_Props.v
theories/Plugins_Spec.v
theories/PmodEq_Model.v
theories/PmodEq_Proofs.v
theories/PmodEq_Props.v
theories/PmodEq_Spec.v
theories/PmodMap_Proofs.v
theories/PmodTuples_Proofs.v
theories/Pmod_Model.v
theories/Pmod_Proofs.v
theories/Pmod_Props.v
theories/Pmod_Spec.v
theories/Print_Model.v
theories/Print_Proofs.v
theories/Print_Props.v
theories/Print_Spec.v
theories/PstepHist_Proofs.v
theories/PstepPaths_Proofs.v
theories/PstepPmod_Proofs.v
theories/PstepTree_Proofs.v
theories/Pstep_Model.v
theories/Pstep_Proofs.v
theories/Pstep_Props.v
theories/Pstep_Spec.v
theories/PyBase.v
theories/PyBase_Proofs.v
theories/Pyeval_Model.v
theories/Pyeval_Proofs.v
theories/Pyeval_Props.v
theories/Pyeval_Spec.v
theories/Ranger_Props.v
theories/ReadRect_Model.v
theories/ReadRect_Props.v
theories/ReadRect_Spec.v
theories/Recur_Model.v
theories/Recur_Proofs.v
theories/Recur_Props.v
theories/Recur_Spec.v
theories/Redim_Model.v
theories/Redim_Proofs.v
theories/Redim_Props.v
theories/Redim_Spec.v
theories/Regex.v
theories/Regex_Proofs.v
theories/Reorder_Proofs.v
theories/Repr_Model.v
theories/Repr_Proofs.v
theories/Repr_Props.v
theories/Repr_Spec.v
theories/Rst_Model.v
theories/Rst_Proofs.v
theories/Rst_Props.v
theories/Rst_Spec.v
theories/Share_Model.v
theories/Share_Proofs.v
theories/Share_Props.v
theories/Share_Spec.v
theories/Sheets_Model.v
theories/Sheets_Proofs.v
theories/Sheets_Props.v
theories/Sheets_Spec.v
theories/Sr_Model.v
theories/Sr_Proofs.v
theories/Sr_Props.v
theories/Sr_Spec.v
theories/Table_Model.v
theories/Table_Proofs.v
theories/Table_Props.v
theories/Table_Spec.v
theories/Tables_Model.v
theories/Tables_Proofs.v
theories/Tables_Props.v
theories/Tables_Spec.v
theories/Target_Proofs.v
theories/Texts_Proofs.v
theories/Twice_Proofs.v
theories/Twice_Props.v
theories/Twice_Spec.v
theories/Units_Proofs.v
theories/Unload_Model.v
theories/Unload_Props.v
theories/Url_Model.v
theories/Url_Proofs.v
theories/Url_Props.v
theories/Url_Spec.v
theories/Utils_Model.v
theories/Utils_Proofs.v
theories/Utils_Props.v
theories/Utils_Spec.v
theories/Vba_Model.v
theories/Vba_Proofs.v
theories/Vba_Props.v
theories/Vba_Spec.v
theories/Visit2_Proofs.v
theories/Visit3_Proofs.v
theories/Visit4_Proofs.v
theories/Visit_Model.v
theories/Visit_Proofs.v
theories/Visit_Props.v
theories/Visit_Spec.v
theories/Whole_Model.v
theories/Whole_Proofs.v
theories/Whole_Props.v
theories/Whole_Spec.v
theories/WinPath_Model.v
theories/WinPath_Proofs.v
theories/WinPath_Props.v
theories/WinPath_Spec.v
theories/WinUrl_Model.v
theories/WinUrl_Proofs.v
theories/WinUrl_Props.v
theories/WinUrl_Spec.v
theories/Xlref_Proofs.v
theories/Xlwings_Model.v
theories/Xlwings_Props.v
