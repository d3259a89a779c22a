(** The CSN.1 descriptor tables of src/rlcmac/csn1_ts_44_060.c, csn1_ts_44_018.c and csn1_ts_24_008.c, transcribed entry
    by entry by a script that reads those files and lays the structures of include/osmocom/gprs/rlcmac/csn1_defs.h
    out as the LP64 ABI does.  Each line shows the macro it comes from; the numbers after the field widths are the offset of the
    member and the octets from there to the end of that member.  Only tables that the modelled entry points reach. *)
From Coq Require Import ZArith List Bool.
From Verif Require Import Lib.Base Csn1.Csn1Model.
Open Scope Z_scope.

(** csn1_ts_44_060.c:1097-1100; the structure: csn1_defs.h:166. *)
Definition Packet_Request_Reference_t : descr :=
  (DUint 11 0 2 false                                           (* M_UINT RANDOM_ACCESS_INFORMATION, 11 *)
  (DUintArr 8 2 2 2                                             (* M_UINT_ARRAY FRAME_NUMBER, 8, 2 *)
  DEnd)).
(** csn1_ts_44_060.c:65-69; the structure: csn1_defs.h:67. *)
Definition Global_TFI_t : descr :=
  (DUnion false 2%nat 0 1                                       (* M_UNION *)
  (DUint 5 1 1 false                                            (* M_UINT u.UPLINK_TFI, 5 *)
  (DUint 5 1 1 false                                            (* M_UINT u.DOWNLINK_TFI, 5 *)
  DEnd))).
(** csn1_ts_44_060.c:1969-1974, the list of alternatives. *)
Definition ch_RejectID : descr :=
  (DAlt 1 0 false (DUint 32 4 4 false DEnd)
  (DAlt 2 2 false (DType 4 4 false Packet_Request_Reference_t DEnd)
  (DAlt 2 3 false (DType 4 2 false Global_TFI_t DEnd)
  DEnd))).
(** csn1_ts_44_060.c:1977-1979; the structure: csn1_defs.h:3255. *)
Definition RejectID_t : descr :=
  (DChoice 0 1 ch_RejectID                                      (* M_CHOICE UnionType, RejectID, ElementsOf(RejectID) *)
  DEnd).
(** csn1_ts_44_060.c:1982-1988; the structure: csn1_defs.h:3264. *)
Definition Reject_t : descr :=
  (DType 0 8 false RejectID_t                                   (* M_TYPE ID, RejectID_t *)
  (DNext false 2%nat 8 1 false                                  (* M_NEXT_EXIST Exist_Wait, 2 *)
  (DUint 8 9 1 false                                            (* M_UINT WAIT_INDICATION, 8 *)
  (DUint 1 10 1 false                                           (* M_UINT WAIT_INDICATION_SIZE, 1 *)
  DEnd)))).
(** csn1_ts_44_060.c:1991-1997; the structure: csn1_defs.h:3274. *)
Definition Packet_Access_Reject_t : descr :=
  (DUint 6 0 1 false                                            (* M_UINT MESSAGE_TYPE, 6 *)
  (DUint 2 1 1 false                                            (* M_UINT PAGE_MODE, 2 *)
  (DRecTArr true 3 4 60 12 5 Reject_t                           (* M_REC_TARRAY_1 Reject, Reject_t, Count_Reject *)
  (DPad                                                         (* M_PADDING_BITS *)
  DEnd)))).
(** csn1_ts_44_060.c:2001-2005, the list of alternatives. *)
Definition ch_PacketCellChangeOrderID : descr :=
  (DAlt 1 0 false (DType 4 2 false Global_TFI_t DEnd)
  (DAlt 2 2 false (DUint 32 4 4 false DEnd)
  DEnd)).
(** csn1_ts_44_060.c:2009-2011; the structure: csn1_defs.h:4040. *)
Definition PacketCellChangeOrderID_t : descr :=
  (DChoice 0 1 ch_PacketCellChangeOrderID                       (* M_CHOICE UnionType, PacketCellChangeOrderID, ElementsOf(PacketCellChangeOrderID) *)
  DEnd).
(** csn1_ts_44_060.c:2060-2062; the structure: csn1_defs.h:3336. *)
Definition Removed_Freq_Index_t : descr :=
  (DUint 6 0 1 false                                            (* M_UINT REMOVED_FREQ_INDEX, 6 *)
  DEnd).
(** csn1_ts_44_060.c:1865-1868; the structure: csn1_defs.h:2868. *)
Definition HCS_t : descr :=
  (DUint 3 0 1 false                                            (* M_UINT PRIORITY_CLASS, 3 *)
  (DUint 5 1 1 false                                            (* M_UINT HCS_THR, 5 *)
  DEnd)).
(** csn1_ts_44_060.c:1871-1874; the structure: csn1_defs.h:2900. *)
Definition Location_Repeat_t : descr :=
  (DUint 2 0 1 false                                            (* M_UINT PBCCH_LOCATION, 2 *)
  (DUint 4 1 1 false                                            (* M_UINT PSI1_REPEAT_PERIOD, 4 *)
  DEnd)).
(** csn1_ts_44_060.c:1877-1881; the structure: csn1_defs.h:2910. *)
Definition SI13_PBCCH_Location_t : descr :=
  (DUnion false 2%nat 0 1                                       (* M_UNION *)
  (DUint 1 1 1 false                                            (* M_UINT u.SI13_LOCATION, 1 *)
  (DType 1 2 false Location_Repeat_t                            (* M_TYPE u.lr, Location_Repeat_t *)
  DEnd))).
(** csn1_ts_44_060.c:1940-1956; the structure: csn1_defs.h:3299. *)
Definition Cell_Selection_2_t : descr :=
  (DUint 1 0 1 false                                            (* M_UINT CELL_BAR_ACCESS_2, 1 *)
  (DUint 1 1 1 false                                            (* M_UINT EXC_ACC, 1 *)
  (DUint 1 2 1 false                                            (* M_UINT SAME_RA_AS_SERVING_CELL, 1 *)
  (DNext false 2%nat 3 1 false                                  (* M_NEXT_EXIST Exist_RXLEV_and_TXPWR, 2 *)
  (DUint 6 4 1 false                                            (* M_UINT GPRS_RXLEV_ACCESS_MIN, 6 *)
  (DUint 5 5 1 false                                            (* M_UINT GPRS_MS_TXPWR_MAX_CCH, 5 *)
  (DNext false 2%nat 6 1 false                                  (* M_NEXT_EXIST Exist_OFFSET_and_TIME, 2 *)
  (DUint 3 7 1 false                                            (* M_UINT GPRS_TEMPORARY_OFFSET, 3 *)
  (DUint 5 8 1 false                                            (* M_UINT GPRS_PENALTY_TIME, 5 *)
  (DNext false 1%nat 9 1 false                                  (* M_NEXT_EXIST Exist_GPRS_RESELECT_OFFSET, 1 *)
  (DUint 5 10 1 false                                           (* M_UINT GPRS_RESELECT_OFFSET, 5 *)
  (DNext false 1%nat 11 1 false                                 (* M_NEXT_EXIST Exist_HCS, 1 *)
  (DType 12 2 false HCS_t                                       (* M_TYPE HCS, HCS_t *)
  (DNext false 1%nat 14 1 false                                 (* M_NEXT_EXIST Exist_SI13_PBCCH_Location, 1 *)
  (DType 15 3 false SI13_PBCCH_Location_t                       (* M_TYPE SI13_PBCCH_Location, SI13_PBCCH_Location_t *)
  DEnd))))))))))))))).
(** csn1_ts_44_060.c:2021-2027; the structure: csn1_defs.h:3316. *)
Definition CellSelectionParamsWithFreqDiff_t : descr :=
  (DVarBmp false false 0 0 1 1                                  (* M_VAR_BITMAP FREQUENCY_DIFF, FREQ_DIFF_LENGTH, 0 *)
  (DUint 6 2 1 false                                            (* M_UINT BSIC, 6 *)
  (DNext false 1%nat 4 4 false                                  (* M_NEXT_EXIST Exist_CellSelectionParams, 1 *)
  (DType 8 18 false Cell_Selection_2_t                          (* M_TYPE CellSelectionParams, Cell_Selection_2_t *)
  DEnd)))).
(** csn1_ts_44_060.c:2045-2058; the structure: csn1_defs.h:3331. *)
Definition Add_Frequency_list_t : descr :=
  (DUint 10 0 2 false                                           (* M_UINT START_FREQUENCY, 10 *)
  (DUint 6 2 1 false                                            (* M_UINT BSIC, 6 *)
  (DNext false 1%nat 3 1 false                                  (* M_NEXT_EXIST Exist_Cell_Selection, 1 *)
  (DType 4 18 false Cell_Selection_2_t                          (* M_TYPE Cell_Selection, Cell_Selection_2_t *)
  (DUint 5 22 1 false                                           (* M_UINT NR_OF_FREQUENCIES, 5 *)
  (DUintOff 3 23 1 1                                            (* M_UINT_OFFSET FREQ_DIFF_LENGTH, 3, 1 *)
  (DCallback (CbFreqDiff 16 28 0) 23 24 896                     (* M_CALLBACK callback_init_Cell_Sel_Param_2_FREQUENCY_DIFF, FREQ_DIFF_LENGTH, CellSelectionParamsWithFreqDiff *)
  (DTArr (CVar 22) 24 896 28 CellSelectionParamsWithFreqDiff_t  (* M_VAR_TARRAY CellSelectionParamsWithFreqDiff, CellSelectionParamsWithFreqDiff_t, NR_OF_FREQUENCIES *)
  DEnd)))))))).
(** csn1_ts_44_060.c:2065-2070; the structure: csn1_defs.h:3346. *)
Definition NC_Frequency_list_t : descr :=
  (DNext false 2%nat 0 1 false                                  (* M_NEXT_EXIST Exist_REMOVED_FREQ, 2 *)
  (DUintOff 5 1 1 1                                             (* M_UINT_OFFSET NR_OF_REMOVED_FREQ, 5, 1 *)
  (DTArr (CVar 1) 2 32 1 Removed_Freq_Index_t                   (* M_VAR_TARRAY Removed_Freq_Index, Removed_Freq_Index_t, NR_OF_REMOVED_FREQ *)
  (DRecTArr false 34 36 29440 920 32 Add_Frequency_list_t       (* M_REC_TARRAY Add_Frequency, Add_Frequency_list_t, Count_Add_Frequency *)
  DEnd)))).
(** csn1_ts_44_060.c:2083-2093; the structure: csn1_defs.h:3360. *)
Definition NC_Measurement_Parameters_with_Frequency_List_t : descr :=
  (DUint 2 0 1 false                                            (* M_UINT NETWORK_CONTROL_ORDER, 2 *)
  (DNext false 3%nat 1 1 false                                  (* M_NEXT_EXIST Exist_NC, 3 *)
  (DUint 3 2 1 false                                            (* M_UINT NC_NON_DRX_PERIOD, 3 *)
  (DUint 3 3 1 false                                            (* M_UINT NC_REPORTING_PERIOD_I, 3 *)
  (DUint 3 4 1 false                                            (* M_UINT NC_REPORTING_PERIOD_T, 3 *)
  (DNext false 1%nat 5 1 false                                  (* M_NEXT_EXIST Exist_NC_FREQUENCY_LIST, 1 *)
  (DType 8 29476 false NC_Frequency_list_t                      (* M_TYPE NC_Frequency_list, NC_Frequency_list_t *)
  DEnd))))))).
(** csn1_ts_44_060.c:3033-3037; the structure: csn1_defs.h:242. *)
Definition LSA_ID_Info_Element_t : descr :=
  (DUnion false 2%nat 0 1                                       (* M_UNION *)
  (DUint 24 1 1 false                                           (* M_UINT u.LSA_ID, 24 *)
  (DUint 10 1 1 false                                           (* M_UINT u.ShortLSA_ID, 10 *)
  DEnd))).
(** csn1_ts_44_060.c:3040-3042; the structure: csn1_defs.h:250. *)
Definition LSA_ID_Info_t : descr :=
  (DRecTArr false 0 1 32 2 16 LSA_ID_Info_Element_t             (* M_REC_TARRAY LSA_ID_Info_Elements, LSA_ID_Info_Element_t, Count_LSA_ID_Info_Element *)
  DEnd).
(** csn1_ts_44_060.c:3045-3048; the structure: csn1_defs.h:258. *)
Definition LSA_Parameters_t : descr :=
  (DUint 5 0 1 false                                            (* M_UINT NR_OF_FREQ_OR_CELLS, 5 *)
  (DTArr (CVar 0) 1 1056 33 LSA_ID_Info_t                       (* M_VAR_TARRAY LSA_ID_Info, LSA_ID_Info_t, NR_OF_FREQ_OR_CELLS *)
  DEnd)).
(** csn1_ts_44_060.c:2097-2100; the structure: csn1_defs.h:3367. *)
Definition BA_IND_t : descr :=
  (DUint 1 0 1 false                                            (* M_UINT BA_IND, 1 *)
  (DUint 1 1 1 false                                            (* M_UINT BA_IND_3G, 1 *)
  DEnd)).
(** csn1_ts_44_060.c:2316-2322; the structure: csn1_defs.h:3923. *)
Definition UTRAN_FDD_NeighbourCells_t : descr :=
  (DUint 1 0 1 false                                            (* M_UINT ZERO, 1 *)
  (DUint 14 2 2 false                                           (* M_UINT UARFCN, 14 *)
  (DUint 1 4 1 false                                            (* M_UINT Indic0, 1 *)
  (DUint 5 5 1 false                                            (* M_UINT NrOfCells, 5 *)
  (DVarBmp false false 0 6 7 16                                 (* M_VAR_BITMAP CellInfo, BitsInCellInfo, 0 *)
  DEnd))))).
(** csn1_ts_44_060.c:2325-2329; the structure: csn1_defs.h:3930. *)
Definition UTRAN_FDD_Description_t : descr :=
  (DNext false 1%nat 0 4 false                                  (* M_NEXT_EXIST existBandwidth, 1 *)
  (DUint 3 4 1 false                                            (* M_UINT Bandwidth, 3 *)
  (DRecTArr false 5 6 192 24 8 UTRAN_FDD_NeighbourCells_t       (* M_REC_TARRAY CellParams, UTRAN_FDD_NeighbourCells_t, NrOfFrequencies *)
  DEnd))).
(** csn1_ts_44_060.c:2419-2426; the structure: csn1_defs.h:3939. *)
Definition UTRAN_TDD_NeighbourCells_t : descr :=
  (DUint 1 0 1 false                                            (* M_UINT ZERO, 1 *)
  (DUint 14 2 2 false                                           (* M_UINT UARFCN, 14 *)
  (DUint 1 4 1 false                                            (* M_UINT Indic0, 1 *)
  (DUint 5 5 1 false                                            (* M_UINT NrOfCells, 5 *)
  (DCallback CbTddMap 5 6 1                                     (* M_CALLBACK callback_UTRAN_TDD_map_NrOfFrequencies, NrOfCells, BitsInCellInfo *)
  (DCallback (CbTddInfo 6) 0 7 16                               (* M_CALLBACK callback_UTRAN_TDD_compute_TDD_CELL_INFORMATION, ZERO, CellInfo *)
  DEnd)))))).
(** csn1_ts_44_060.c:2429-2433; the structure: csn1_defs.h:3946. *)
Definition UTRAN_TDD_Description_t : descr :=
  (DNext false 1%nat 0 4 false                                  (* M_NEXT_EXIST existBandwidth, 1 *)
  (DUint 3 4 1 false                                            (* M_UINT Bandwidth, 3 *)
  (DRecTArr false 5 6 192 24 8 UTRAN_TDD_NeighbourCells_t       (* M_REC_TARRAY CellParams, UTRAN_TDD_NeighbourCells_t, NrOfFrequencies *)
  DEnd))).
(** csn1_ts_44_060.c:2204-2208; the structure: csn1_defs.h:3897. *)
Definition N2_t : descr :=
  (DUint 7 0 1 false                                            (* M_UINT REMOVED_3GCELL_INDEX, 7 *)
  (DUint 3 1 1 false                                            (* M_UINT CELL_DIFF_LENGTH_3G, 3 *)
  (DVarBmp false false 0 1 2 1                                  (* M_VAR_BITMAP CELL_DIFF_3G, CELL_DIFF_LENGTH_3G, 0 *)
  DEnd))).
(** csn1_ts_44_060.c:2211-2214; the structure: csn1_defs.h:3903. *)
Definition N1_t : descr :=
  (DUintOff 5 0 1 1                                             (* M_UINT_OFFSET N2_Count, 5, 1 *)
  (DTArr (CVar 0) 1 96 3 N2_t                                   (* M_VAR_TARRAY N2s, N2_t, N2_Count *)
  DEnd)).
(** csn1_ts_44_060.c:2217-2220; the structure: csn1_defs.h:3909. *)
Definition Removed3GCellDescription_t : descr :=
  (DUintOff 2 0 1 1                                             (* M_UINT_OFFSET N1_Count, 2, 1 *)
  (DTArr (CVar 0) 1 388 97 N1_t                                 (* M_VAR_TARRAY N1s, N1_t, N1_Count *)
  DEnd)).
(** csn1_ts_44_060.c:2452-2463; the structure: csn1_defs.h:3976. *)
Definition NeighbourCellDescription3G_PCCO_t : descr :=
  (DNext false 1%nat 0 1 false                                  (* M_NEXT_EXIST Exist_Index_Start_3G, 1 *)
  (DUint 7 1 1 false                                            (* M_UINT Index_Start_3G, 7 *)
  (DNext false 1%nat 2 1 false                                  (* M_NEXT_EXIST Exist_Absolute_Index_Start_EMR, 1 *)
  (DUint 7 3 1 false                                            (* M_UINT Absolute_Index_Start_EMR, 7 *)
  (DNext false 1%nat 4 1 false                                  (* M_NEXT_EXIST Exist_UTRAN_FDD_Description, 1 *)
  (DType 8 200 false UTRAN_FDD_Description_t                    (* M_TYPE UTRAN_FDD_Description, UTRAN_FDD_Description_t *)
  (DNext false 1%nat 208 1 false                                (* M_NEXT_EXIST Exist_UTRAN_TDD_Description, 1 *)
  (DType 212 200 false UTRAN_TDD_Description_t                  (* M_TYPE UTRAN_TDD_Description, UTRAN_TDD_Description_t *)
  (DNext false 1%nat 412 1 false                                (* M_NEXT_EXIST Exist_Removed3GCellDescription, 1 *)
  (DType 413 389 false Removed3GCellDescription_t               (* M_TYPE Removed3GCellDescription, Removed3GCellDescription_t *)
  DEnd)))))))))).
(** csn1_ts_44_060.c:2103-2106; the structure: csn1_defs.h:268. *)
Definition GPRSReportPriority_t : descr :=
  (DUint 7 0 1 false                                            (* M_UINT NUMBER_CELLS, 7 *)
  (DVarBmp false false 0 0 1 16                                 (* M_VAR_BITMAP REPORT_PRIORITY, NUMBER_CELLS, 0 *)
  DEnd)).
(** csn1_ts_44_060.c:2109-2112; the structure: csn1_defs.h:274. *)
Definition OffsetThreshold_t : descr :=
  (DUint 3 0 1 false                                            (* M_UINT REPORTING_OFFSET, 3 *)
  (DUint 3 1 1 false                                            (* M_UINT REPORTING_THRESHOLD, 3 *)
  DEnd)).
(** csn1_ts_44_060.c:2115-2138; the structure: csn1_defs.h:3828. *)
Definition GPRSMeasurementParams_PMO_PCCO_t : descr :=
  (DNext false 1%nat 0 1 false                                  (* M_NEXT_EXIST Exist_MULTI_BAND_REPORTING, 1 *)
  (DUint 2 1 1 false                                            (* M_UINT MULTI_BAND_REPORTING, 2 *)
  (DNext false 1%nat 2 1 false                                  (* M_NEXT_EXIST Exist_SERVING_BAND_REPORTING, 1 *)
  (DUint 2 3 1 false                                            (* M_UINT SERVING_BAND_REPORTING, 2 *)
  (DUint 2 5 1 false                                            (* M_UINT SCALE_ORD, 2 *)
  (DNext false 1%nat 6 1 false                                  (* M_NEXT_EXIST Exist_OffsetThreshold900, 1 *)
  (DType 7 2 false OffsetThreshold_t                            (* M_TYPE OffsetThreshold900, OffsetThreshold_t *)
  (DNext false 1%nat 9 1 false                                  (* M_NEXT_EXIST Exist_OffsetThreshold1800, 1 *)
  (DType 10 2 false OffsetThreshold_t                           (* M_TYPE OffsetThreshold1800, OffsetThreshold_t *)
  (DNext false 1%nat 12 1 false                                 (* M_NEXT_EXIST Exist_OffsetThreshold400, 1 *)
  (DType 13 2 false OffsetThreshold_t                           (* M_TYPE OffsetThreshold400, OffsetThreshold_t *)
  (DNext false 1%nat 15 1 false                                 (* M_NEXT_EXIST Exist_OffsetThreshold1900, 1 *)
  (DType 16 2 false OffsetThreshold_t                           (* M_TYPE OffsetThreshold1900, OffsetThreshold_t *)
  (DNext false 1%nat 18 1 false                                 (* M_NEXT_EXIST Exist_OffsetThreshold850, 1 *)
  (DType 19 2 false OffsetThreshold_t                           (* M_TYPE OffsetThreshold850, OffsetThreshold_t *)
  DEnd))))))))))))))).
(** csn1_ts_44_060.c:2164-2170; the structure: csn1_defs.h:3836. *)
Definition MultiratParams3G_t : descr :=
  (DNext false 1%nat 0 4 false                                  (* M_NEXT_EXIST existMultiratReporting, 1 *)
  (DUint 2 4 1 false                                            (* M_UINT MultiratReporting, 2 *)
  (DNext false 1%nat 8 4 false                                  (* M_NEXT_EXIST existOffsetThreshold, 1 *)
  (DType 12 2 false OffsetThreshold_t                           (* M_TYPE OffsetThreshold, OffsetThreshold_t *)
  DEnd)))).
(** csn1_ts_44_060.c:2189-2201; the structure: csn1_defs.h:3868. *)
Definition ENH_GPRSMeasurementParams3G_PCCO_t : descr :=
  (DUint 4 0 1 false                                            (* M_UINT Qsearch_P, 4 *)
  (DUint 1 1 1 false                                            (* M_UINT SearchPrio3G, 1 *)
  (DNext false 2%nat 4 4 false                                  (* M_NEXT_EXIST existRepParamsFDD, 2 *)
  (DUint 1 8 1 false                                            (* M_UINT RepQuantFDD, 1 *)
  (DUint 2 9 1 false                                            (* M_UINT MultiratReportingFDD, 2 *)
  (DNext false 1%nat 12 4 false                                 (* M_NEXT_EXIST existOffsetThreshold, 1 *)
  (DType 16 2 false OffsetThreshold_t                           (* M_TYPE OffsetThreshold, OffsetThreshold_t *)
  (DType 20 16 false MultiratParams3G_t                         (* M_TYPE ParamsTDD, MultiratParams3G_t *)
  DEnd)))))))).
(** csn1_ts_44_060.c:2490-2511; the structure: csn1_defs.h:4030. *)
Definition ENH_Measurement_Parameters_PCCO_t : descr :=
  (DUnion false 2%nat 0 1                                       (* M_UNION *)
  (DType 1 2 false BA_IND_t                                     (* M_TYPE u.BA_IND, BA_IND_t *)
  (DUint 2 1 1 false                                            (* M_UINT u.PSI3_CHANGE_MARK, 2 *)
  (DUint 1 3 1 false                                            (* M_UINT PMO_IND, 1 *)
  (DUint 1 4 1 false                                            (* M_UINT REPORT_TYPE, 1 *)
  (DUint 1 5 1 false                                            (* M_UINT REPORTING_RATE, 1 *)
  (DUint 1 6 1 false                                            (* M_UINT INVALID_BSIC_REPORTING, 1 *)
  (DNext false 1%nat 8 4 false                                  (* M_NEXT_EXIST Exist_NeighbourCellDescription3G, 1 *)
  (DType 12 804 false NeighbourCellDescription3G_PCCO_t         (* M_TYPE NeighbourCellDescription3G, NeighbourCellDescription3G_PCCO_t *)
  (DNext false 1%nat 816 4 false                                (* M_NEXT_EXIST Exist_GPRSReportPriority, 1 *)
  (DType 820 17 false GPRSReportPriority_t                      (* M_TYPE GPRSReportPriority, GPRSReportPriority_t *)
  (DNext false 1%nat 840 4 false                                (* M_NEXT_EXIST Exist_GPRSMeasurementParams, 1 *)
  (DType 844 21 false GPRSMeasurementParams_PMO_PCCO_t          (* M_TYPE GPRSMeasurementParams, GPRSMeasurementParams_PMO_PCCO_t *)
  (DNext false 1%nat 868 4 false                                (* M_NEXT_EXIST Exist_GPRSMeasurementParams3G, 1 *)
  (DType 872 36 false ENH_GPRSMeasurementParams3G_PCCO_t        (* M_TYPE GPRSMeasurementParams3G, ENH_GPRSMeasurementParams3G_PCCO_t *)
  DEnd))))))))))))))).
(** csn1_ts_44_060.c:2514-2517; the structure: csn1_defs.h:232. *)
Definition CCN_Support_Description_t : descr :=
  (DUint 7 0 1 false                                            (* M_UINT NUMBER_CELLS, 7 *)
  (DVarBmp false false 0 0 1 16                                 (* M_VAR_BITMAP CCN_SUPPORTED, NUMBER_CELLS, 0 *)
  DEnd)).
(** csn1_ts_44_060.c:2520-2524; the structure: csn1_defs.h:4047. *)
Definition lu_ModeCellSelectionParameters_t : descr :=
  (DUint 2 0 1 false                                            (* M_UINT CELL_BAR_QUALIFY_3, 2 *)
  (DNext false 1%nat 1 1 false                                  (* M_NEXT_EXIST Exist_SI13_Alt_PBCCH_Location, 1 *)
  (DType 2 3 false SI13_PBCCH_Location_t                        (* M_TYPE SI13_Alt_PBCCH_Location, SI13_PBCCH_Location_t *)
  DEnd))).
(** csn1_ts_44_060.c:2527-2530; the structure: csn1_defs.h:4053. *)
Definition lu_ModeCellSelectionParams_t : descr :=
  (DNext false 1%nat 0 1 false                                  (* M_NEXT_EXIST Exist_lu_ModeCellSelectionParams, 1 *)
  (DType 1 5 false lu_ModeCellSelectionParameters_t             (* M_TYPE lu_ModeCellSelectionParameters, lu_ModeCellSelectionParameters_t *)
  DEnd)).
(** csn1_ts_44_060.c:2533-2537; the structure: csn1_defs.h:4060. *)
Definition lu_ModeNeighbourCellParams_t : descr :=
  (DType 0 6 false lu_ModeCellSelectionParams_t                 (* M_TYPE lu_ModeCellSelectionParameters, lu_ModeCellSelectionParams_t *)
  (DUint 5 6 1 false                                            (* M_UINT NR_OF_FREQUENCIES, 5 *)
  (DTArr (CVar 6) 7 192 6 lu_ModeCellSelectionParams_t          (* M_VAR_TARRAY lu_ModeCellSelectionParams, lu_ModeCellSelectionParams_t, NR_OF_FREQUENCIES *)
  DEnd))).
(** csn1_ts_44_060.c:2540-2560; the structure: csn1_defs.h:4083. *)
Definition lu_ModeOnlyCellSelection_t : descr :=
  (DUint 2 0 1 false                                            (* M_UINT CELL_BAR_QUALIFY_3, 2 *)
  (DUint 1 1 1 false                                            (* M_UINT SAME_RA_AS_SERVING_CELL, 1 *)
  (DNext false 2%nat 2 1 false                                  (* M_NEXT_EXIST Exist_RXLEV_and_TXPWR, 2 *)
  (DUint 6 3 1 false                                            (* M_UINT GPRS_RXLEV_ACCESS_MIN, 6 *)
  (DUint 5 4 1 false                                            (* M_UINT GPRS_MS_TXPWR_MAX_CCH, 5 *)
  (DNext false 2%nat 5 1 false                                  (* M_NEXT_EXIST Exist_OFFSET_and_TIME, 2 *)
  (DUint 3 6 1 false                                            (* M_UINT GPRS_TEMPORARY_OFFSET, 3 *)
  (DUint 5 7 1 false                                            (* M_UINT GPRS_PENALTY_TIME, 5 *)
  (DNext false 1%nat 8 1 false                                  (* M_NEXT_EXIST Exist_GPRS_RESELECT_OFFSET, 1 *)
  (DUint 5 9 1 false                                            (* M_UINT GPRS_RESELECT_OFFSET, 5 *)
  (DNext false 1%nat 10 1 false                                 (* M_NEXT_EXIST Exist_HCS, 1 *)
  (DType 11 2 false HCS_t                                       (* M_TYPE HCS, HCS_t *)
  (DNext false 1%nat 13 1 false                                 (* M_NEXT_EXIST Exist_SI13_Alt_PBCCH_Location, 1 *)
  (DType 14 3 false SI13_PBCCH_Location_t                       (* M_TYPE SI13_Alt_PBCCH_Location, SI13_PBCCH_Location_t *)
  DEnd)))))))))))))).
(** csn1_ts_44_060.c:2563-2569; the structure: csn1_defs.h:4093. *)
Definition lu_ModeOnlyCellSelectionParamsWithFreqDiff_t : descr :=
  (DVarBmp false false 0 0 1 1                                  (* M_VAR_BITMAP FREQUENCY_DIFF, FREQ_DIFF_LENGTH, 0 *)
  (DUint 6 2 1 false                                            (* M_UINT BSIC, 6 *)
  (DNext false 1%nat 4 4 false                                  (* M_NEXT_EXIST Exist_lu_ModeOnlyCellSelectionParams, 1 *)
  (DType 8 17 false lu_ModeOnlyCellSelection_t                  (* M_TYPE lu_ModeOnlyCellSelectionParams, lu_ModeOnlyCellSelection_t *)
  DEnd)))).
(** csn1_ts_44_060.c:2587-2600; the structure: csn1_defs.h:4107. *)
Definition Add_lu_ModeOnlyFrequencyList_t : descr :=
  (DUint 10 0 2 false                                           (* M_UINT START_FREQUENCY, 10 *)
  (DUint 6 2 1 false                                            (* M_UINT BSIC, 6 *)
  (DNext false 1%nat 3 1 false                                  (* M_NEXT_EXIST Exist_lu_ModeCellSelection, 1 *)
  (DType 4 17 false lu_ModeOnlyCellSelection_t                  (* M_TYPE lu_ModeOnlyCellSelection, lu_ModeOnlyCellSelection_t *)
  (DUint 5 21 1 false                                           (* M_UINT NR_OF_FREQUENCIES, 5 *)
  (DUint 3 22 1 false                                           (* M_UINT FREQ_DIFF_LENGTH, 3 *)
  (DCallback (CbFreqDiff 16 28 0) 22 24 896                     (* M_CALLBACK callback_init_luMode_Cell_Sel_Param_FREQUENCY_DIFF, FREQ_DIFF_LENGTH, lu_ModeOnlyCellSelectionParamsWithFreqDiff *)
  (DTArr (CVar 21) 24 896 28 lu_ModeOnlyCellSelectionParamsWithFreqDiff_t (* M_VAR_TARRAY lu_ModeOnlyCellSelectionParamsWithFreqDiff, lu_ModeOnlyCellSelectionParamsWithFreqDiff_t, NR_OF_FREQUENCIES *)
  DEnd)))))))).
(** csn1_ts_44_060.c:2603-2605; the structure: csn1_defs.h:4113. *)
Definition NC_lu_ModeOnlyCapableCellList_t : descr :=
  (DRecTArr false 0 4 29440 920 32 Add_lu_ModeOnlyFrequencyList_t (* M_REC_TARRAY Add_lu_ModeOnlyFrequencyList, Add_lu_ModeOnlyFrequencyList_t, Count_Add_lu_ModeOnlyFrequencyList *)
  DEnd).
(** csn1_ts_44_060.c:2608-2611; the structure: csn1_defs.h:318. *)
Definition GPRS_AdditionalMeasurementParams3G_t : descr :=
  (DNext false 1%nat 0 1 false                                  (* M_NEXT_EXIST Exist_FDD_REPORTING_THRESHOLD_2, 1 *)
  (DUint 6 1 1 false                                            (* M_UINT FDD_REPORTING_THRESHOLD_2, 6 *)
  DEnd)).
(** csn1_ts_44_060.c:2965-2967; the structure: csn1_defs.h:4518. *)
Definition PCCO_AdditionsR6_t : descr :=
  (DUint 1 0 1 false                                            (* M_UINT CCN_ACTIVE_3G, 1 *)
  DEnd).
(** csn1_ts_44_060.c:2984-2995; the structure: csn1_defs.h:4548. *)
Definition PCCO_AdditionsR5_t : descr :=
  (DNext false 1%nat 0 1 false                                  (* M_NEXT_EXIST existGRNTI_Extension, 1 *)
  (DUint 4 1 1 false                                            (* M_UINT GRNTI, 4 *)
  (DNext false 1%nat 2 1 false                                  (* M_NEXT_EXIST exist_lu_ModeNeighbourCellParams, 1 *)
  (DRecTArr false 3 4 6368 199 32 lu_ModeNeighbourCellParams_t  (* M_REC_TARRAY lu_ModeNeighbourCellParams, lu_ModeNeighbourCellParams_t, count_lu_ModeNeighbourCellParams *)
  (DNext false 1%nat 6372 1 false                               (* M_NEXT_EXIST existNC_lu_ModeOnlyCapableCellList, 1 *)
  (DType 6376 29444 false NC_lu_ModeOnlyCapableCellList_t       (* M_TYPE NC_lu_ModeOnlyCapableCellList, NC_lu_ModeOnlyCapableCellList_t *)
  (DNext false 1%nat 35820 1 false                              (* M_NEXT_EXIST existGPRS_AdditionalMeasurementParams3G, 1 *)
  (DType 35821 2 false GPRS_AdditionalMeasurementParams3G_t     (* M_TYPE GPRS_AdditionalMeasurementParams3G, GPRS_AdditionalMeasurementParams3G_t *)
  (DNext false 1%nat 35823 1 true                               (* M_NEXT_EXIST_OR_NULL existAdditionsR6, 1 *)
  (DType 35824 1 false PCCO_AdditionsR6_t                       (* M_TYPE additionsR6, PCCO_AdditionsR6_t *)
  DEnd)))))))))).
(** csn1_ts_44_060.c:3015-3023; the structure: csn1_defs.h:4568. *)
Definition PCCO_AdditionsR4_t : descr :=
  (DUint 1 0 1 false                                            (* M_UINT CCN_ACTIVE, 1 *)
  (DNext false 1%nat 1 1 false                                  (* M_NEXT_EXIST Exist_Container_ID, 1 *)
  (DUint 2 2 1 false                                            (* M_UINT CONTAINER_ID, 2 *)
  (DNext false 1%nat 3 1 false                                  (* M_NEXT_EXIST Exist_CCN_Support_Description_ID, 1 *)
  (DType 4 17 false CCN_Support_Description_t                   (* M_TYPE CCN_Support_Description, CCN_Support_Description_t *)
  (DNext false 1%nat 21 1 true                                  (* M_NEXT_EXIST_OR_NULL Exist_AdditionsR5, 1 *)
  (DType 24 35828 false PCCO_AdditionsR5_t                      (* M_TYPE AdditionsR5, PCCO_AdditionsR5_t *)
  DEnd))))))).
(** csn1_ts_44_060.c:3026-3030; the structure: csn1_defs.h:4575. *)
Definition PCCO_AdditionsR99_t : descr :=
  (DType 0 908 false ENH_Measurement_Parameters_PCCO_t          (* M_TYPE ENH_Measurement_Parameters, ENH_Measurement_Parameters_PCCO_t *)
  (DNext false 1%nat 908 1 true                                 (* M_NEXT_EXIST_OR_NULL Exist_AdditionsR4, 1 *)
  (DType 912 35852 false PCCO_AdditionsR4_t                     (* M_TYPE AdditionsR4, PCCO_AdditionsR4_t *)
  DEnd))).
(** csn1_ts_44_060.c:3060-3066; the structure: csn1_defs.h:4601. *)
Definition PCCO_AdditionsR98_t : descr :=
  (DNext false 1%nat 0 1 false                                  (* M_NEXT_EXIST Exist_LSA_Parameters, 1 *)
  (DType 1 1057 false LSA_Parameters_t                          (* M_TYPE LSA_Parameters, LSA_Parameters_t *)
  (DNext false 1%nat 1058 1 true                                (* M_NEXT_EXIST_OR_NULL Exist_AdditionsR99, 1 *)
  (DType 1060 36764 false PCCO_AdditionsR99_t                   (* M_TYPE AdditionsR99, PCCO_AdditionsR99_t *)
  DEnd)))).
(** csn1_ts_44_060.c:3069-3076; the structure: csn1_defs.h:4612. *)
Definition Target_Cell_GSM_t : descr :=
  (DUint 1 0 1 false                                            (* M_UINT IMMEDIATE_REL, 1 *)
  (DUint 10 2 2 false                                           (* M_UINT ARFCN, 10 *)
  (DUint 6 4 1 false                                            (* M_UINT BSIC, 6 *)
  (DType 8 29484 false NC_Measurement_Parameters_with_Frequency_List_t (* M_TYPE NC_Measurement_Parameters, NC_Measurement_Parameters_with_Frequency_List_t *)
  (DNext false 1%nat 29492 1 true                               (* M_NEXT_EXIST_OR_NULL Exist_AdditionsR98, 1 *)
  (DType 29496 37824 false PCCO_AdditionsR98_t                  (* M_TYPE AdditionsR98, PCCO_AdditionsR98_t *)
  DEnd)))))).
(** csn1_ts_44_060.c:842-848; the structure: csn1_defs.h:1781. *)
Definition FDD_Target_Cell_t : descr :=
  (DUint 14 0 2 false                                           (* M_UINT FDD_ARFCN, 14 *)
  (DUint 1 2 1 false                                            (* M_UINT DIVERSITY, 1 *)
  (DNext false 1%nat 3 1 false                                  (* M_NEXT_EXIST Exist_Bandwith_FDD, 1 *)
  (DUint 3 4 1 false                                            (* M_UINT BANDWITH_FDD, 3 *)
  (DUint 9 6 2 false                                            (* M_UINT SCRAMBLING_CODE, 9 *)
  DEnd))))).
(** csn1_ts_44_060.c:851-858; the structure: csn1_defs.h:1791. *)
Definition TDD_Target_Cell_t : descr :=
  (DUint 14 0 2 false                                           (* M_UINT TDD_ARFCN, 14 *)
  (DUint 1 2 1 false                                            (* M_UINT DIVERSITY_TDD, 1 *)
  (DNext false 1%nat 3 1 false                                  (* M_NEXT_EXIST Exist_Bandwith_TDD, 1 *)
  (DUint 3 4 1 false                                            (* M_UINT BANDWITH_TDD, 3 *)
  (DUint 7 6 2 false                                            (* M_UINT CELL_PARAMETER, 7 *)
  (DUint 1 8 1 false                                            (* M_UINT Sync_Case_TSTD, 1 *)
  DEnd)))))).
(** csn1_ts_44_060.c:861-866; the structure: csn1_defs.h:1799. *)
Definition EUTRAN_Target_Cell_t : descr :=
  (DUint 16 0 2 false                                           (* M_UINT EARFCN, 16 *)
  (DNext false 1%nat 2 1 false                                  (* M_NEXT_EXIST Exist_Measurement_Bandwidth, 1 *)
  (DUint 3 3 1 false                                            (* M_UINT Measurement_Bandwidth, 3 *)
  (DUint 9 4 2 false                                            (* M_UINT Physical_Layer_Cell_Identity, 9 *)
  DEnd)))).
(** csn1_ts_44_060.c:2856-2858; the structure: csn1_defs.h:4400. *)
Definition Delete_All_Stored_Individual_Priorities_t : descr :=
  (DNull 0                                                      (* M_NULL dummy, 0 *)
  DEnd).
(** csn1_ts_44_060.c:2861-2863; the structure: csn1_defs.h:4406. *)
Definition Individual_UTRAN_Priority_FDD_t : descr :=
  (DRecArr 14 0 2 64                                            (* M_REC_ARRAY FDD_ARFCN, Count, 14 *)
  DEnd).
(** csn1_ts_44_060.c:2866-2868; the structure: csn1_defs.h:4412. *)
Definition Individual_UTRAN_Priority_TDD_t : descr :=
  (DRecArr 14 0 2 64                                            (* M_REC_ARRAY TDD_ARFCN, Count, 14 *)
  DEnd).
(** csn1_ts_44_060.c:2871-2876; the structure: csn1_defs.h:4423. *)
Definition Repeated_Individual_UTRAN_Priority_Parameters_t : descr :=
  (DUnion false 2%nat 0 1                                       (* M_UNION *)
  (DType 2 66 false Individual_UTRAN_Priority_FDD_t             (* M_TYPE u.Individual_UTRAN_Priority_FDD, Individual_UTRAN_Priority_FDD_t *)
  (DType 2 66 false Individual_UTRAN_Priority_TDD_t             (* M_TYPE u.Individual_UTRAN_Priority_TDD, Individual_UTRAN_Priority_TDD_t *)
  (DUint 3 68 1 false                                           (* M_UINT UTRAN_PRIORITY, 3 *)
  DEnd)))).
(** csn1_ts_44_060.c:2879-2883; the structure: csn1_defs.h:4431. *)
Definition ThreeG_Individual_Priority_Parameters_Description_t : descr :=
  (DNext false 1%nat 0 1 false                                  (* M_NEXT_EXIST Exist_DEFAULT_UTRAN_PRIORITY, 1 *)
  (DUint 3 1 1 false                                            (* M_UINT DEFAULT_UTRAN_PRIORITY, 3 *)
  (DRecTArr false 2 4 2240 70 32 Repeated_Individual_UTRAN_Priority_Parameters_t (* M_REC_TARRAY Repeated_Individual_UTRAN_Priority_Parameters, Repeated_Individual_UTRAN_Priority_Parameters_t, Repeated_Individual_UTRAN_Priority_Parameters_Count *)
  DEnd))).
(** csn1_ts_44_060.c:2886-2889; the structure: csn1_defs.h:4438. *)
Definition Repeated_Individual_EUTRAN_Priority_Parameters_t : descr :=
  (DRecArr 16 0 2 64                                            (* M_REC_ARRAY EARFCN, Count, 16 *)
  (DUint 3 66 1 false                                           (* M_UINT EUTRAN_PRIORITY, 3 *)
  DEnd)).
(** csn1_ts_44_060.c:2892-2896; the structure: csn1_defs.h:4446. *)
Definition EUTRAN_Individual_Priority_Parameters_Description_t : descr :=
  (DNext false 1%nat 0 1 false                                  (* M_NEXT_EXIST Exist_DEFAULT_EUTRAN_PRIORITY, 1 *)
  (DUint 3 1 1 false                                            (* M_UINT DEFAULT_EUTRAN_PRIORITY, 3 *)
  (DRecTArr false 2 4 2176 68 32 Repeated_Individual_EUTRAN_Priority_Parameters_t (* M_REC_TARRAY Repeated_Individual_EUTRAN_Priority_Parameters, Repeated_Individual_EUTRAN_Priority_Parameters_t, Count *)
  DEnd))).
(** csn1_ts_44_060.c:2899-2907; the structure: csn1_defs.h:4457. *)
Definition Provide_Individual_Priorities_t : descr :=
  (DUint 3 0 1 false                                            (* M_UINT GERAN_PRIORITY, 3 *)
  (DNext false 1%nat 1 1 false                                  (* M_NEXT_EXIST Exist_3G_Individual_Priority_Parameters_Description, 1 *)
  (DType 2 2244 false ThreeG_Individual_Priority_Parameters_Description_t (* M_TYPE ThreeG_Individual_Priority_Parameters_Description, ThreeG_Individual_Priority_Parameters_Description_t *)
  (DNext false 1%nat 2246 1 false                               (* M_NEXT_EXIST Exist_EUTRAN_Individual_Priority_Parameters_Description, 1 *)
  (DType 2248 2180 false EUTRAN_Individual_Priority_Parameters_Description_t (* M_TYPE EUTRAN_Individual_Priority_Parameters_Description, EUTRAN_Individual_Priority_Parameters_Description_t *)
  (DNext false 1%nat 4428 1 false                               (* M_NEXT_EXIST Exist_T3230_timeout_value, 1 *)
  (DUint 3 4429 1 false                                         (* M_UINT T3230_timeout_value, 3 *)
  DEnd))))))).
(** csn1_ts_44_060.c:2910-2914; the structure: csn1_defs.h:4467. *)
Definition Individual_Priorities_t : descr :=
  (DUnion false 2%nat 0 1                                       (* M_UNION *)
  (DType 2 1 false Delete_All_Stored_Individual_Priorities_t    (* M_TYPE u.Delete_All_Stored_Individual_Priorities, Delete_All_Stored_Individual_Priorities_t *)
  (DType 2 4430 false Provide_Individual_Priorities_t           (* M_TYPE u.Provide_Individual_Priorities, Provide_Individual_Priorities_t *)
  DEnd))).
(** csn1_ts_44_060.c:3079-3084; the structure: csn1_defs.h:4620. *)
Definition Target_Cell_3G_AdditionsR8_t : descr :=
  (DNext false 1%nat 0 1 false                                  (* M_NEXT_EXIST Exist_EUTRAN_Target_Cell, 1 *)
  (DType 2 6 false EUTRAN_Target_Cell_t                         (* M_TYPE EUTRAN_Target_Cell, EUTRAN_Target_Cell_t *)
  (DNext false 1%nat 8 1 false                                  (* M_NEXT_EXIST Exist_Individual_Priorities, 1 *)
  (DType 10 4432 false Individual_Priorities_t                  (* M_TYPE Individual_Priorities, Individual_Priorities_t *)
  DEnd)))).
(** csn1_ts_44_060.c:3087-3092; the structure: csn1_defs.h:4628. *)
Definition Target_Cell_3G_AdditionsR5_t : descr :=
  (DNext false 1%nat 0 1 false                                  (* M_NEXT_EXIST Exist_G_RNTI_Extention, 1 *)
  (DUint 4 1 1 false                                            (* M_UINT G_RNTI_Extention, 4 *)
  (DNext false 1%nat 2 1 true                                   (* M_NEXT_EXIST_OR_NULL Exist_AdditionsR8, 1 *)
  (DType 4 4442 false Target_Cell_3G_AdditionsR8_t              (* M_TYPE AdditionsR8, Target_Cell_3G_AdditionsR8_t *)
  DEnd)))).
(** csn1_ts_44_060.c:3095-3105; the structure: csn1_defs.h:4640. *)
Definition Target_Cell_3G_t : descr :=
  (DFixed 2 0                                                   (* M_FIXED 2, 0x00 *)
  (DUint 1 0 1 false                                            (* M_UINT IMMEDIATE_REL, 1 *)
  (DNext false 1%nat 1 1 false                                  (* M_NEXT_EXIST Exist_FDD_Description, 1 *)
  (DType 2 8 false FDD_Target_Cell_t                            (* M_TYPE FDD_Target_Cell, FDD_Target_Cell_t *)
  (DNext false 1%nat 10 1 false                                 (* M_NEXT_EXIST Exist_TDD_Description, 1 *)
  (DType 12 10 false TDD_Target_Cell_t                          (* M_TYPE TDD_Target_Cell, TDD_Target_Cell_t *)
  (DNext false 1%nat 22 1 true                                  (* M_NEXT_EXIST_OR_NULL Exist_AdditionsR5, 1 *)
  (DType 24 4446 false Target_Cell_3G_AdditionsR5_t             (* M_TYPE AdditionsR5, Target_Cell_3G_AdditionsR5_t *)
  DEnd)))))))).
(** csn1_ts_44_060.c:3108-3119; the structure: csn1_defs.h:4661. *)
Definition Packet_Cell_Change_Order_t : descr :=
  (DUint 6 0 1 false                                            (* M_UINT MESSAGE_TYPE, 6 *)
  (DUint 2 1 1 false                                            (* M_UINT PAGE_MODE, 2 *)
  (DType 4 8 false PacketCellChangeOrderID_t                    (* M_TYPE ID, PacketCellChangeOrderID_t *)
  (DUnion false 2%nat 12 1                                      (* M_UNION *)
  (DType 16 67320 false Target_Cell_GSM_t                       (* M_TYPE u.Target_Cell_GSM, Target_Cell_GSM_t *)
  (DType 16 4470 false Target_Cell_3G_t                         (* M_TYPE u.Target_Cell_3G, Target_Cell_3G_t *)
  (DPad                                                         (* M_PADDING_BITS *)
  DEnd))))))).
(** csn1_ts_44_060.c:3557-3569; the structure: csn1_defs.h:4674. *)
Definition Packet_Cell_Change_Continue_t : descr :=
  (DUint 6 0 1 false                                            (* M_UINT MESSAGE_TYPE, 6 *)
  (DUint 2 1 1 false                                            (* M_UINT PAGE_MODE, 2 *)
  (DFixed 1 0                                                   (* M_FIXED 1, 0x00 *)
  (DType 2 2 false Global_TFI_t                                 (* M_TYPE Global_TFI, Global_TFI_t *)
  (DNext false 3%nat 4 1 false                                  (* M_NEXT_EXIST Exist_ID, 3 *)
  (DUint 10 6 2 false                                           (* M_UINT ARFCN, 10 *)
  (DUint 6 8 1 false                                            (* M_UINT BSIC, 6 *)
  (DUint 2 9 1 false                                            (* M_UINT CONTAINER_ID, 2 *)
  (DPad                                                         (* M_PADDING_BITS *)
  DEnd))))))))).
(** csn1_ts_44_060.c:1413-1417, the list of alternatives. *)
Definition ch_PacketDownlinkID : descr :=
  (DAlt 1 0 false (DType 4 2 false Global_TFI_t DEnd)
  (DAlt 2 2 false (DUint 32 4 4 false DEnd)
  DEnd)).
(** csn1_ts_44_060.c:1420-1422; the structure: csn1_defs.h:2361. *)
Definition PacketDownlinkID_t : descr :=
  (DChoice 0 1 ch_PacketDownlinkID                              (* M_CHOICE UnionType, PacketDownlinkID, ElementsOf(PacketDownlinkID) *)
  DEnd).
(** csn1_ts_44_060.c:89-96; the structure: csn1_defs.h:95. *)
Definition Packet_Timing_Advance_t : descr :=
  (DNext false 1%nat 0 1 false                                  (* M_NEXT_EXIST Exist_TIMING_ADVANCE_VALUE, 1 *)
  (DUint 6 1 1 false                                            (* M_UINT TIMING_ADVANCE_VALUE, 6 *)
  (DNext false 2%nat 2 1 false                                  (* M_NEXT_EXIST Exist_IndexAndtimeSlot, 2 *)
  (DUint 4 3 1 false                                            (* M_UINT TIMING_ADVANCE_INDEX, 4 *)
  (DUint 3 4 1 false                                            (* M_UINT TIMING_ADVANCE_TIMESLOT_NUMBER, 3 *)
  DEnd))))).
(** csn1_ts_44_060.c:1055-1060; the structure: csn1_defs.h:2027. *)
Definition CHANGE_MARK_t : descr :=
  (DUint 2 0 1 false                                            (* M_UINT CHANGE_MARK_1, 2 *)
  (DNext false 1%nat 1 1 false                                  (* M_NEXT_EXIST Exist_CHANGE_MARK_2, 1 *)
  (DUint 2 2 1 false                                            (* M_UINT CHANGE_MARK_2, 2 *)
  DEnd))).
(** csn1_ts_44_060.c:1063-1069; the structure: csn1_defs.h:2036. *)
Definition Indirect_encoding_t : descr :=
  (DUint 6 0 1 false                                            (* M_UINT MAIO, 6 *)
  (DUint 4 1 1 false                                            (* M_UINT MA_NUMBER, 4 *)
  (DNext false 1%nat 2 1 false                                  (* M_NEXT_EXIST Exist_CHANGE_MARK, 1 *)
  (DType 3 3 false CHANGE_MARK_t                                (* M_TYPE CHANGE_MARK, CHANGE_MARK_t *)
  DEnd)))).
(** csn1_ts_44_060.c:234-237; the structure: csn1_defs.h:421. *)
Definition MobileAllocation_t : descr :=
  (DUintOff 6 9 1 1                                             (* M_UINT_OFFSET MA_BitLength, 6, 1 *)
  (DVarBmp false false 0 9 1 8                                  (* M_VAR_BITMAP MA_BITMAP, MA_BitLength, 0 *)
  DEnd)).
(** csn1_ts_44_060.c:240-242; the structure: csn1_defs.h:427. *)
Definition ARFCN_index_list_t : descr :=
  (DRecArr 6 0 1 16                                             (* M_REC_ARRAY ARFCN_INDEX, ElementsOf_ARFCN_INDEX, 6 *)
  DEnd).
(** csn1_ts_44_060.c:245-251; the structure: csn1_defs.h:442. *)
Definition GPRS_Mobile_Allocation_t : descr :=
  (DUint 6 0 1 false                                            (* M_UINT HSN, 6 *)
  (DRecArr 4 1 2 4                                              (* M_REC_ARRAY RFL_NUMBER, ElementsOf_RFL_NUMBER, 4 *)
  (DUnion false 2%nat 6 1                                       (* M_UNION *)
  (DType 7 10 false MobileAllocation_t                          (* M_TYPE u.MA, MobileAllocation_t *)
  (DType 7 17 false ARFCN_index_list_t                          (* M_TYPE u.ARFCN_index_list, ARFCN_index_list_t *)
  DEnd))))).
(** csn1_ts_44_060.c:1072-1075; the structure: csn1_defs.h:2042. *)
Definition Direct_encoding_1_t : descr :=
  (DUint 6 0 1 false                                            (* M_UINT MAIO, 6 *)
  (DType 1 24 false GPRS_Mobile_Allocation_t                    (* M_TYPE GPRS_Mobile_Allocation, GPRS_Mobile_Allocation_t *)
  DEnd)).
(** csn1_ts_44_060.c:1078-1083; the structure: csn1_defs.h:2050. *)
Definition Direct_encoding_2_t : descr :=
  (DUint 6 0 1 false                                            (* M_UINT MAIO, 6 *)
  (DUint 6 1 1 false                                            (* M_UINT HSN, 6 *)
  (DUintOff 4 2 1 3                                             (* M_UINT_OFFSET Length_of_MA_Frequency_List, 4, 3 *)
  (DVarArr 0 2 3 18                                             (* M_VAR_ARRAY MA_Frequency_List, Length_of_MA_Frequency_List, 0 *)
  DEnd)))).
(** csn1_ts_44_060.c:1086-1094; the structure: csn1_defs.h:2063. *)
Definition Frequency_Parameters_t : descr :=
  (DUint 3 0 1 false                                            (* M_UINT TSC, 3 *)
  (DUnion false 4%nat 1 1                                       (* M_UNION *)
  (DUint 10 2 2 false                                           (* M_UINT u.ARFCN, 10 *)
  (DType 2 6 false Indirect_encoding_t                          (* M_TYPE u.Indirect_encoding, Indirect_encoding_t *)
  (DType 2 25 false Direct_encoding_1_t                         (* M_TYPE u.Direct_encoding_1, Direct_encoding_1_t *)
  (DType 2 21 false Direct_encoding_2_t                         (* M_TYPE u.Direct_encoding_2, Direct_encoding_2_t *)
  DEnd)))))).
(** csn1_ts_44_060.c:940-966; the structure: csn1_defs.h:106. *)
Definition Power_Control_Parameters_t : descr :=
  (DUint 4 0 1 false                                            (* M_UINT ALPHA, 4 *)
  (DNext false 1%nat 1 1 false                                  (* M_NEXT_EXIST Slot[0].Exist, 1 *)
  (DUint 5 2 1 false                                            (* M_UINT Slot[0].GAMMA_TN, 5 *)
  (DNext false 1%nat 3 1 false                                  (* M_NEXT_EXIST Slot[1].Exist, 1 *)
  (DUint 5 4 1 false                                            (* M_UINT Slot[1].GAMMA_TN, 5 *)
  (DNext false 1%nat 5 1 false                                  (* M_NEXT_EXIST Slot[2].Exist, 1 *)
  (DUint 5 6 1 false                                            (* M_UINT Slot[2].GAMMA_TN, 5 *)
  (DNext false 1%nat 7 1 false                                  (* M_NEXT_EXIST Slot[3].Exist, 1 *)
  (DUint 5 8 1 false                                            (* M_UINT Slot[3].GAMMA_TN, 5 *)
  (DNext false 1%nat 9 1 false                                  (* M_NEXT_EXIST Slot[4].Exist, 1 *)
  (DUint 5 10 1 false                                           (* M_UINT Slot[4].GAMMA_TN, 5 *)
  (DNext false 1%nat 11 1 false                                 (* M_NEXT_EXIST Slot[5].Exist, 1 *)
  (DUint 5 12 1 false                                           (* M_UINT Slot[5].GAMMA_TN, 5 *)
  (DNext false 1%nat 13 1 false                                 (* M_NEXT_EXIST Slot[6].Exist, 1 *)
  (DUint 5 14 1 false                                           (* M_UINT Slot[6].GAMMA_TN, 5 *)
  (DNext false 1%nat 15 1 false                                 (* M_NEXT_EXIST Slot[7].Exist, 1 *)
  (DUint 5 16 1 false                                           (* M_UINT Slot[7].GAMMA_TN, 5 *)
  DEnd))))))))))))))))).
(** csn1_ts_44_060.c:57-61; the structure: csn1_defs.h:57. *)
Definition StartingTime_t : descr :=
  (DUint 5 0 1 false                                            (* M_UINT N32, 5 *)
  (DUint 6 1 1 false                                            (* M_UINT N51, 6 *)
  (DUint 5 2 1 false                                            (* M_UINT N26, 5 *)
  DEnd))).
(** csn1_ts_44_060.c:73-77; the structure: csn1_defs.h:77. *)
Definition Starting_Frame_Number_t : descr :=
  (DUnion false 2%nat 0 1                                       (* M_UNION *)
  (DType 2 3 false StartingTime_t                               (* M_TYPE u.StartingTime, StartingTime_t *)
  (DUint 13 2 2 false                                           (* M_UINT u.k, 13 *)
  DEnd))).
(** csn1_ts_44_060.c:1406-1410; the structure: csn1_defs.h:2351. *)
Definition Measurement_Mapping_struct_t : descr :=
  (DType 0 6 false Starting_Frame_Number_t                      (* M_TYPE Measurement_Starting_Time, Starting_Frame_Number_t *)
  (DUint 5 6 1 false                                            (* M_UINT MEASUREMENT_INTERVAL, 5 *)
  (DUint 8 7 1 false                                            (* M_UINT MEASUREMENT_BITMAP, 8 *)
  DEnd))).
(** csn1_ts_44_060.c:1318-1324; the structure: csn1_defs.h:2212. *)
Definition COMPACT_ReducedMA_t : descr :=
  (DUint 7 0 1 false                                            (* M_UINT BitmapLength, 7 *)
  (DVarBmp false false 0 0 1 16                                 (* M_VAR_BITMAP ReducedMA_Bitmap, BitmapLength, 0 *)
  (DNext false 1%nat 20 4 false                                 (* M_NEXT_EXIST Exist_MAIO_2, 1 *)
  (DUint 6 24 1 false                                           (* M_UINT MAIO_2, 6 *)
  DEnd)))).
(** csn1_ts_44_060.c:1425-1437; the structure: csn1_defs.h:2376. *)
Definition PDA_AdditionsR99_t : descr :=
  (DNext false 4%nat 0 4 false                                  (* M_NEXT_EXIST Exist_EGPRS_Params, 4 *)
  (DUint 5 4 1 false                                            (* M_UINT EGPRS_WindowSize, 5 *)
  (DUint 2 5 1 false                                            (* M_UINT LINK_QUALITY_MEASUREMENT_MODE, 2 *)
  (DNext false 1%nat 8 4 false                                  (* M_NEXT_EXIST Exist_BEP_PERIOD2, 1 *)
  (DUint 4 12 1 false                                           (* M_UINT BEP_PERIOD2, 4 *)
  (DNext false 1%nat 16 4 false                                 (* M_NEXT_EXIST Exist_Packet_Extended_Timing_Advance, 1 *)
  (DUint 2 20 1 false                                           (* M_UINT Packet_Extended_Timing_Advance, 2 *)
  (DNext false 1%nat 24 4 false                                 (* M_NEXT_EXIST Exist_COMPACT_ReducedMA, 1 *)
  (DType 28 28 false COMPACT_ReducedMA_t                        (* M_TYPE COMPACT_ReducedMA, COMPACT_ReducedMA_t *)
  DEnd))))))))).
(** csn1_ts_44_060.c:1440-1481; the structure: csn1_defs.h:2416. *)
Definition Packet_Downlink_Assignment_t : descr :=
  (DUint 6 0 1 false                                            (* M_UINT MESSAGE_TYPE, 6 *)
  (DUint 2 1 1 false                                            (* M_UINT PAGE_MODE, 2 *)
  (DNext false 1%nat 4 4 false                                  (* M_NEXT_EXIST Exist_PERSISTENCE_LEVEL, 1 *)
  (DUintArr 4 4 8 4                                             (* M_UINT_ARRAY PERSISTENCE_LEVEL, 4, 4 *)
  (DType 12 8 false PacketDownlinkID_t                          (* M_TYPE ID, PacketDownlinkID_t *)
  (DFixed 1 0                                                   (* M_FIXED 1, 0x00 *)
  (DUint 2 20 1 false                                           (* M_UINT MAC_MODE, 2 *)
  (DUint 1 21 1 false                                           (* M_UINT RLC_MODE, 1 *)
  (DUint 1 22 1 false                                           (* M_UINT CONTROL_ACK, 1 *)
  (DUint 8 23 1 false                                           (* M_UINT TIMESLOT_ALLOCATION, 8 *)
  (DType 24 5 false Packet_Timing_Advance_t                     (* M_TYPE Packet_Timing_Advance, Packet_Timing_Advance_t *)
  (DNext false 3%nat 32 4 false                                 (* M_NEXT_EXIST Exist_P0_and_BTS_PWR_CTRL_MODE, 3 *)
  (DUint 4 36 1 false                                           (* M_UINT P0, 4 *)
  (DUint 1 37 1 false                                           (* M_UINT BTS_PWR_CTRL_MODE, 1 *)
  (DUint 1 38 1 false                                           (* M_UINT PR_MODE, 1 *)
  (DNext false 1%nat 40 4 false                                 (* M_NEXT_EXIST Exist_Frequency_Parameters, 1 *)
  (DType 44 28 false Frequency_Parameters_t                     (* M_TYPE Frequency_Parameters, Frequency_Parameters_t *)
  (DNext false 1%nat 72 4 false                                 (* M_NEXT_EXIST Exist_DOWNLINK_TFI_ASSIGNMENT, 1 *)
  (DUint 5 76 1 false                                           (* M_UINT DOWNLINK_TFI_ASSIGNMENT, 5 *)
  (DNext false 1%nat 80 4 false                                 (* M_NEXT_EXIST Exist_Power_Control_Parameters, 1 *)
  (DType 84 17 false Power_Control_Parameters_t                 (* M_TYPE Power_Control_Parameters, Power_Control_Parameters_t *)
  (DNext false 1%nat 104 4 false                                (* M_NEXT_EXIST Exist_TBF_Starting_Time, 1 *)
  (DType 108 6 false Starting_Frame_Number_t                    (* M_TYPE TBF_Starting_Time, Starting_Frame_Number_t *)
  (DNext false 1%nat 114 1 false                                (* M_NEXT_EXIST Exist_Measurement_Mapping, 1 *)
  (DType 116 8 false Measurement_Mapping_struct_t               (* M_TYPE Measurement_Mapping, Measurement_Mapping_struct_t *)
  (DNext false 1%nat 124 4 true                                 (* M_NEXT_EXIST_OR_NULL Exist_AdditionsR99, 1 *)
  (DType 128 56 false PDA_AdditionsR99_t                        (* M_TYPE AdditionsR99, PDA_AdditionsR99_t *)
  (DPad                                                         (* M_PADDING_BITS *)
  DEnd)))))))))))))))))))))))))))).
(** csn1_ts_44_060.c:2223-2226; the structure: csn1_defs.h:3914. *)
Definition CDMA2000_Description_t : descr :=
  (DUint 1 0 1 false                                            (* M_UINT Complete_This, 1 *)
  (DTrap (-8)                                                   (* CSN_ERROR "Not Implemented", CSN_ERROR_STREAM_NOT_SUPPORTED *)
  DEnd)).
(** csn1_ts_44_060.c:2436-2449; the structure: csn1_defs.h:3962. *)
Definition NeighbourCellDescription3G_PMO_t : descr :=
  (DNext false 1%nat 0 1 false                                  (* M_NEXT_EXIST Exist_Index_Start_3G, 1 *)
  (DUint 7 1 1 false                                            (* M_UINT Index_Start_3G, 7 *)
  (DNext false 1%nat 2 1 false                                  (* M_NEXT_EXIST Exist_Absolute_Index_Start_EMR, 1 *)
  (DUint 7 3 1 false                                            (* M_UINT Absolute_Index_Start_EMR, 7 *)
  (DNext false 1%nat 4 1 false                                  (* M_NEXT_EXIST Exist_UTRAN_FDD_Description, 1 *)
  (DType 8 200 false UTRAN_FDD_Description_t                    (* M_TYPE UTRAN_FDD_Description, UTRAN_FDD_Description_t *)
  (DNext false 1%nat 208 1 false                                (* M_NEXT_EXIST Exist_UTRAN_TDD_Description, 1 *)
  (DType 212 200 false UTRAN_TDD_Description_t                  (* M_TYPE UTRAN_TDD_Description, UTRAN_TDD_Description_t *)
  (DNext false 1%nat 412 1 false                                (* M_NEXT_EXIST Exist_CDMA2000_Description, 1 *)
  (DType 413 1 false CDMA2000_Description_t                     (* M_TYPE CDMA2000_Description, CDMA2000_Description_t *)
  (DNext false 1%nat 414 1 false                                (* M_NEXT_EXIST Exist_Removed3GCellDescription, 1 *)
  (DType 415 389 false Removed3GCellDescription_t               (* M_TYPE Removed3GCellDescription, Removed3GCellDescription_t *)
  DEnd)))))))))))).
(** csn1_ts_44_060.c:2173-2186; the structure: csn1_defs.h:3852. *)
Definition ENH_GPRSMeasurementParams3G_PMO_t : descr :=
  (DUint 4 0 1 false                                            (* M_UINT Qsearch_P, 4 *)
  (DUint 1 1 1 false                                            (* M_UINT SearchPrio3G, 1 *)
  (DNext false 2%nat 4 4 false                                  (* M_NEXT_EXIST existRepParamsFDD, 2 *)
  (DUint 1 8 1 false                                            (* M_UINT RepQuantFDD, 1 *)
  (DUint 2 9 1 false                                            (* M_UINT MultiratReportingFDD, 2 *)
  (DNext false 1%nat 12 4 false                                 (* M_NEXT_EXIST existOffsetThreshold, 1 *)
  (DType 16 2 false OffsetThreshold_t                           (* M_TYPE OffsetThreshold, OffsetThreshold_t *)
  (DType 20 16 false MultiratParams3G_t                         (* M_TYPE ParamsTDD, MultiratParams3G_t *)
  (DType 36 16 false MultiratParams3G_t                         (* M_TYPE ParamsCDMA2000, MultiratParams3G_t *)
  DEnd))))))))).
(** csn1_ts_44_060.c:2466-2487; the structure: csn1_defs.h:4003. *)
Definition ENH_Measurement_Parameters_PMO_t : descr :=
  (DUnion false 2%nat 0 1                                       (* M_UNION *)
  (DType 1 2 false BA_IND_t                                     (* M_TYPE u.BA_IND, BA_IND_t *)
  (DUint 2 1 1 false                                            (* M_UINT u.PSI3_CHANGE_MARK, 2 *)
  (DUint 1 3 1 false                                            (* M_UINT PMO_IND, 1 *)
  (DUint 1 4 1 false                                            (* M_UINT REPORT_TYPE, 1 *)
  (DUint 1 5 1 false                                            (* M_UINT REPORTING_RATE, 1 *)
  (DUint 1 6 1 false                                            (* M_UINT INVALID_BSIC_REPORTING, 1 *)
  (DNext false 1%nat 8 4 false                                  (* M_NEXT_EXIST Exist_NeighbourCellDescription3G, 1 *)
  (DType 12 804 false NeighbourCellDescription3G_PMO_t          (* M_TYPE NeighbourCellDescription3G, NeighbourCellDescription3G_PMO_t *)
  (DNext false 1%nat 816 4 false                                (* M_NEXT_EXIST Exist_GPRSReportPriority, 1 *)
  (DType 820 17 false GPRSReportPriority_t                      (* M_TYPE GPRSReportPriority, GPRSReportPriority_t *)
  (DNext false 1%nat 840 4 false                                (* M_NEXT_EXIST Exist_GPRSMeasurementParams, 1 *)
  (DType 844 21 false GPRSMeasurementParams_PMO_PCCO_t          (* M_TYPE GPRSMeasurementParams, GPRSMeasurementParams_PMO_PCCO_t *)
  (DNext false 1%nat 868 4 false                                (* M_NEXT_EXIST Exist_GPRSMeasurementParams3G, 1 *)
  (DType 872 52 false ENH_GPRSMeasurementParams3G_PMO_t         (* M_TYPE GPRSMeasurementParams3G, ENH_GPRSMeasurementParams3G_PMO_t *)
  DEnd))))))))))))))).
(** csn1_ts_44_060.c:2614-2620; the structure: csn1_defs.h:4262. *)
Definition ServingCellPriorityParametersDescription_t : descr :=
  (DUint 3 0 1 false                                            (* M_UINT GERAN_PRIORITY, 3 *)
  (DUint 4 1 1 false                                            (* M_UINT THRESH_Priority_Search, 4 *)
  (DUint 4 2 1 false                                            (* M_UINT THRESH_GSM_low, 4 *)
  (DUint 2 3 1 false                                            (* M_UINT H_PRIO, 2 *)
  (DUint 2 4 1 false                                            (* M_UINT T_Reselection, 2 *)
  DEnd))))).
(** csn1_ts_44_060.c:2623-2636; the structure: csn1_defs.h:4131. *)
Definition RepeatedUTRAN_PriorityParameters_t : descr :=
  (DRecArr 5 0 1 18                                             (* M_REC_ARRAY UTRAN_FREQUENCY_INDEX_a, NumberOfFrequencyIndexes, 5 *)
  (DNext false 1%nat 20 4 false                                 (* M_NEXT_EXIST existUTRAN_PRIORITY, 1 *)
  (DUint 3 24 1 false                                           (* M_UINT UTRAN_PRIORITY, 3 *)
  (DUint 5 25 1 false                                           (* M_UINT THRESH_UTRAN_high, 5 *)
  (DNext false 1%nat 28 4 false                                 (* M_NEXT_EXIST existTHRESH_UTRAN_low, 1 *)
  (DUint 5 32 1 false                                           (* M_UINT THRESH_UTRAN_low, 5 *)
  (DNext false 1%nat 36 4 false                                 (* M_NEXT_EXIST existUTRAN_QRXLEVMIN, 1 *)
  (DUint 5 40 1 false                                           (* M_UINT UTRAN_QRXLEVMIN, 5 *)
  DEnd)))))))).
(** csn1_ts_44_060.c:2639-2647; the structure: csn1_defs.h:4142. *)
Definition PriorityParametersDescription3G_PMO_t : descr :=
  (DNext false 3%nat 0 4 false                                  (* M_NEXT_EXIST existDEFAULT_UTRAN_Parameters, 3 *)
  (DUint 3 4 1 false                                            (* M_UINT DEFAULT_UTRAN_PRIORITY, 3 *)
  (DUint 5 5 1 false                                            (* M_UINT DEFAULT_THRESH_UTRAN, 5 *)
  (DUint 5 6 1 false                                            (* M_UINT DEFAULT_UTRAN_QRXLEVMIN, 5 *)
  (DRecTArr false 7 8 352 44 8 RepeatedUTRAN_PriorityParameters_t (* M_REC_TARRAY RepeatedUTRAN_PriorityParameters_a, RepeatedUTRAN_PriorityParameters_t, NumberOfPriorityParameters *)
  DEnd))))).
(** csn1_ts_44_060.c:2650-2664; the structure: csn1_defs.h:4159. *)
Definition EUTRAN_REPORTING_THRESHOLD_OFFSET_t : descr :=
  (DNext false 5%nat 0 4 false                                  (* M_NEXT_EXIST existEUTRAN_FDD_REPORTING_THRESHOLD_OFFSET, 5 *)
  (DUint 3 4 1 false                                            (* M_UINT EUTRAN_FDD_REPORTING_THRESHOLD, 3 *)
  (DNext false 1%nat 8 4 false                                  (* M_NEXT_EXIST existEUTRAN_FDD_REPORTING_THRESHOLD_2, 1 *)
  (DUint 6 12 1 false                                           (* M_UINT EUTRAN_FDD_REPORTING_THRESHOLD_2, 6 *)
  (DNext false 1%nat 16 4 false                                 (* M_NEXT_EXIST existEUTRAN_FDD_REPORTING_OFFSET, 1 *)
  (DUint 3 20 1 false                                           (* M_UINT EUTRAN_FDD_REPORTING_OFFSET, 3 *)
  (DNext false 5%nat 24 4 false                                 (* M_NEXT_EXIST existEUTRAN_TDD_REPORTING_THRESHOLD_OFFSET, 5 *)
  (DUint 3 28 1 false                                           (* M_UINT EUTRAN_TDD_REPORTING_THRESHOLD, 3 *)
  (DNext false 1%nat 32 4 false                                 (* M_NEXT_EXIST existEUTRAN_TDD_REPORTING_THRESHOLD_2, 1 *)
  (DUint 6 36 1 false                                           (* M_UINT EUTRAN_TDD_REPORTING_THRESHOLD_2, 6 *)
  (DNext false 1%nat 40 4 false                                 (* M_NEXT_EXIST existEUTRAN_TDD_REPORTING_OFFSET, 1 *)
  (DUint 3 44 1 false                                           (* M_UINT EUTRAN_TDD_REPORTING_OFFSET, 3 *)
  DEnd)))))))))))).
(** csn1_ts_44_060.c:2667-2672; the structure: csn1_defs.h:4167. *)
Definition GPRS_EUTRAN_MeasurementParametersDescription_t : descr :=
  (DUint 4 0 1 false                                            (* M_UINT Qsearch_P_EUTRAN, 4 *)
  (DUint 1 1 1 false                                            (* M_UINT EUTRAN_REP_QUANT, 1 *)
  (DUint 2 2 1 false                                            (* M_UINT EUTRAN_MULTIRAT_REPORTING, 2 *)
  (DType 4 48 false EUTRAN_REPORTING_THRESHOLD_OFFSET_t         (* M_TYPE EUTRAN_REPORTING_THRESHOLD_OFFSET, EUTRAN_REPORTING_THRESHOLD_OFFSET_t *)
  DEnd)))).
(** csn1_ts_44_060.c:2675-2679; the structure: csn1_defs.h:4174. *)
Definition RepeatedEUTRAN_Cells_t : descr :=
  (DUint 16 0 2 false                                           (* M_UINT EARFCN, 16 *)
  (DNext false 1%nat 4 4 false                                  (* M_NEXT_EXIST existMeasurementBandwidth, 1 *)
  (DUint 3 8 1 false                                            (* M_UINT MeasurementBandwidth, 3 *)
  DEnd))).
(** csn1_ts_44_060.c:2682-2695; the structure: csn1_defs.h:4191. *)
Definition RepeatedEUTRAN_NeighbourCells_t : descr :=
  (DRecTArr false 0 4 72 12 6 RepeatedEUTRAN_Cells_t            (* M_REC_TARRAY EUTRAN_Cells_a, RepeatedEUTRAN_Cells_t, nbrOfEUTRAN_Cells *)
  (DNext false 1%nat 76 4 false                                 (* M_NEXT_EXIST existEUTRAN_PRIORITY, 1 *)
  (DUint 3 80 1 false                                           (* M_UINT EUTRAN_PRIORITY, 3 *)
  (DUint 5 81 1 false                                           (* M_UINT THRESH_EUTRAN_high, 5 *)
  (DNext false 1%nat 84 4 false                                 (* M_NEXT_EXIST existTHRESH_EUTRAN_low, 1 *)
  (DUint 5 88 1 false                                           (* M_UINT THRESH_EUTRAN_low, 5 *)
  (DNext false 1%nat 92 4 false                                 (* M_NEXT_EXIST existEUTRAN_QRXLEVMIN, 1 *)
  (DUint 5 96 1 false                                           (* M_UINT EUTRAN_QRXLEVMIN, 5 *)
  DEnd)))))))).
(** csn1_ts_44_060.c:2698-2702; the structure: csn1_defs.h:4203. *)
Definition PCID_Pattern_t : descr :=
  (DUint 3 0 1 false                                            (* M_UINT PCID_Pattern_length, 3 *)
  (DVarBmp false false 1 0 1 1                                  (* M_VAR_BITMAP PCID_Pattern, PCID_Pattern_length, 1 *)
  (DUint 1 2 1 false                                            (* M_UINT PCID_Pattern_sense, 1 *)
  DEnd))).
(** csn1_ts_44_060.c:2705-2713; the structure: csn1_defs.h:4215. *)
Definition PCID_Group_IE_t : descr :=
  (DRecArr 9 0 2 22                                             (* M_REC_ARRAY PCID_a, NumberOfPCIDs, 9 *)
  (DNext false 1%nat 24 4 false                                 (* M_NEXT_EXIST existPCID_BITMAP_GROUP, 1 *)
  (DUint 6 28 1 false                                           (* M_UINT PCID_BITMAP_GROUP, 6 *)
  (DRecTArr false 29 30 57 3 19 PCID_Pattern_t                  (* M_REC_TARRAY PCID_Pattern_a, PCID_Pattern_t, NumberOfPCID_Patterns *)
  DEnd)))).
(** csn1_ts_44_060.c:2716-2718; the structure: csn1_defs.h:4220. *)
Definition EUTRAN_FREQUENCY_INDEX_t : descr :=
  (DUint 3 0 1 false                                            (* M_UINT EUTRAN_FREQUENCY_INDEX, 3 *)
  DEnd).
(** csn1_ts_44_060.c:2721-2725; the structure: csn1_defs.h:4227. *)
Definition RepeatedEUTRAN_NotAllowedCells_t : descr :=
  (DType 0 88 false PCID_Group_IE_t                             (* M_TYPE NotAllowedCells, PCID_Group_IE_t *)
  (DRecTArr false 88 89 28 1 28 EUTRAN_FREQUENCY_INDEX_t        (* M_REC_TARRAY EUTRAN_FREQUENCY_INDEX_a, EUTRAN_FREQUENCY_INDEX_t, NumberOfFrequencyIndexes *)
  DEnd)).
(** csn1_ts_44_060.c:2728-2731; the structure: csn1_defs.h:4236. *)
Definition RepeatedEUTRAN_PCID_to_TA_mapping_t : descr :=
  (DRecTArr false 0 4 1232 88 14 PCID_Group_IE_t                (* M_REC_TARRAY PCID_ToTA_Mapping_a, PCID_Group_IE_t, NumberOfMappings *)
  (DRecTArr false 1236 1237 28 1 28 EUTRAN_FREQUENCY_INDEX_t    (* M_REC_TARRAY EUTRAN_FREQUENCY_INDEX_a, EUTRAN_FREQUENCY_INDEX_t, NumberOfFrequencyIndexes *)
  DEnd)).
(** csn1_ts_44_060.c:2734-2743; the structure: csn1_defs.h:4253. *)
Definition EUTRAN_ParametersDescription_PMO_t : descr :=
  (DUint 1 0 1 false                                            (* M_UINT EUTRAN_CCN_ACTIVE, 1 *)
  (DNext false 1%nat 4 4 false                                  (* M_NEXT_EXIST existGPRS_EUTRAN_MeasurementParametersDescription, 1 *)
  (DType 8 52 false GPRS_EUTRAN_MeasurementParametersDescription_t (* M_TYPE GPRS_EUTRAN_MeasurementParametersDescription, GPRS_EUTRAN_MeasurementParametersDescription_t *)
  (DRecTArr false 60 64 400 100 4 RepeatedEUTRAN_NeighbourCells_t (* M_REC_TARRAY RepeatedEUTRAN_NeighbourCells_a, RepeatedEUTRAN_NeighbourCells_t, nbrOfRepeatedEUTRAN_NeighbourCellsStructs *)
  (DRecTArr false 464 468 1680 120 14 RepeatedEUTRAN_NotAllowedCells_t (* M_REC_TARRAY RepeatedEUTRAN_NotAllowedCells_a, RepeatedEUTRAN_NotAllowedCells_t, NumberOfNotAllowedCells *)
  (DRecTArr false 2148 2152 24092 1268 19 RepeatedEUTRAN_PCID_to_TA_mapping_t (* M_REC_TARRAY RepeatedEUTRAN_PCID_to_TA_mapping_a, RepeatedEUTRAN_PCID_to_TA_mapping_t, NumberOfMappings *)
  DEnd)))))).
(** csn1_ts_44_060.c:2845-2852; the structure: csn1_defs.h:4274. *)
Definition PriorityAndEUTRAN_ParametersDescription_PMO_t : descr :=
  (DNext false 1%nat 0 4 false                                  (* M_NEXT_EXIST existServingCellPriorityParametersDescription, 1 *)
  (DType 4 5 false ServingCellPriorityParametersDescription_t   (* M_TYPE ServingCellPriorityParametersDescription, ServingCellPriorityParametersDescription_t *)
  (DNext false 1%nat 12 4 false                                 (* M_NEXT_EXIST existPriorityParametersDescription3G_PMO, 1 *)
  (DType 16 360 false PriorityParametersDescription3G_PMO_t     (* M_TYPE PriorityParametersDescription3G_PMO, PriorityParametersDescription3G_PMO_t *)
  (DNext false 1%nat 376 4 false                                (* M_NEXT_EXIST existEUTRAN_ParametersDescription_PMO, 1 *)
  (DType 380 26244 false EUTRAN_ParametersDescription_PMO_t     (* M_TYPE EUTRAN_ParametersDescription_PMO, EUTRAN_ParametersDescription_PMO_t *)
  DEnd)))))).
(** csn1_ts_44_060.c:2746-2750; the structure: csn1_defs.h:4281. *)
Definition PSC_Pattern_t : descr :=
  (DUint 3 0 1 false                                            (* M_UINT PSC_Pattern_length, 3 *)
  (DVarBmp false false 1 0 1 1                                  (* M_VAR_BITMAP PSC_Pattern, PSC_Pattern_length, 1 *)
  (DUint 1 4 4 false                                            (* M_UINT PSC_Pattern_sense, 1 *)
  DEnd))).
(** csn1_ts_44_060.c:2753-2756; the structure: csn1_defs.h:4289. *)
Definition PSC_Group_t : descr :=
  (DRecArr 9 0 2 64                                             (* M_REC_ARRAY PSC, PSC_Count, 9 *)
  (DRecTArr false 66 68 256 8 32 PSC_Pattern_t                  (* M_REC_TARRAY PSC_Pattern, PSC_Pattern_t, PSC_Pattern_Count *)
  DEnd)).
(** csn1_ts_44_060.c:2759-2762; the structure: csn1_defs.h:4296. *)
Definition ThreeG_CSG_Description_Body_t : descr :=
  (DType 0 324 false PSC_Group_t                                (* M_TYPE CSG_PSC_SPLIT, PSC_Group_t *)
  (DRecArr 5 324 325 32                                         (* M_REC_ARRAY UTRAN_FREQUENCY_INDEX, Count, 5 *)
  DEnd)).
(** csn1_ts_44_060.c:2765-2767; the structure: csn1_defs.h:4302. *)
Definition ThreeG_CSG_Description_t : descr :=
  (DRecTArr false 0 4 11520 360 32 ThreeG_CSG_Description_Body_t (* M_REC_TARRAY ThreeG_CSG_Description_Body, ThreeG_CSG_Description_Body_t, Count *)
  DEnd).
(** csn1_ts_44_060.c:2770-2773; the structure: csn1_defs.h:4309. *)
Definition EUTRAN_CSG_Description_Body_t : descr :=
  (DType 0 324 false PSC_Group_t                                (* M_TYPE CSG_PCI_SPLIT, PSC_Group_t *)
  (DRecArr 3 324 325 32                                         (* M_REC_ARRAY EUTRAN_FREQUENCY_INDEX, Count, 3 *)
  DEnd)).
(** csn1_ts_44_060.c:2776-2778; the structure: csn1_defs.h:4315. *)
Definition EUTRAN_CSG_Description_t : descr :=
  (DRecTArr false 0 4 11520 360 32 EUTRAN_CSG_Description_Body_t (* M_REC_TARRAY EUTRAN_CSG_Description_Body, EUTRAN_CSG_Description_Body_t, Count *)
  DEnd).
(** csn1_ts_44_060.c:2781-2790; the structure: csn1_defs.h:4330. *)
Definition Meas_Ctrl_Param_Desp_t : descr :=
  (DNext false 3%nat 0 4 false                                  (* M_NEXT_EXIST existMeasurement_Control_EUTRAN, 3 *)
  (DUint 1 4 4 false                                            (* M_UINT Measurement_Control_EUTRAN, 1 *)
  (DUint 3 8 1 false                                            (* M_UINT EUTRAN_FREQUENCY_INDEX_top, 3 *)
  (DRecArr 3 9 10 32                                            (* M_REC_ARRAY EUTRAN_FREQUENCY_INDEX, Count_EUTRAN_FREQUENCY_INDEX, 3 *)
  (DNext false 1%nat 44 4 false                                 (* M_NEXT_EXIST existMeasurement_Control_UTRAN, 1 *)
  (DUint 1 48 4 false                                           (* M_UINT Measurement_Control_UTRAN, 1 *)
  (DUint 5 52 1 false                                           (* M_UINT UTRAN_FREQUENCY_INDEX_top, 5 *)
  (DRecArr 5 53 54 32                                           (* M_REC_ARRAY UTRAN_FREQUENCY_INDEX, Count_UTRAN_FREQUENCY_INDEX, 5 *)
  DEnd)))))))).
(** csn1_ts_44_060.c:2793-2801; the structure: csn1_defs.h:4341. *)
Definition Reselection_Based_On_RSRQ_t : descr :=
  (DUint 5 0 1 false                                            (* M_UINT THRESH_EUTRAN_high_Q, 5 *)
  (DNext false 1%nat 4 4 false                                  (* M_NEXT_EXIST existTHRESH_EUTRAN_low_Q, 1 *)
  (DUint 5 8 1 false                                            (* M_UINT THRESH_EUTRAN_low_Q, 5 *)
  (DNext false 1%nat 12 4 false                                 (* M_NEXT_EXIST existEUTRAN_QQUALMIN, 1 *)
  (DUint 4 16 1 false                                           (* M_UINT EUTRAN_QQUALMIN, 4 *)
  (DNext false 1%nat 20 4 false                                 (* M_NEXT_EXIST existEUTRAN_RSRPmin, 1 *)
  (DUint 5 24 1 false                                           (* M_UINT EUTRAN_RSRPmin, 5 *)
  DEnd))))))).
(** csn1_ts_44_060.c:2804-2809; the structure: csn1_defs.h:4353. *)
Definition Rept_EUTRAN_Enh_Cell_Resel_Param_t : descr :=
  (DRecArr 3 0 1 32                                             (* M_REC_ARRAY EUTRAN_FREQUENCY_INDEX, Count_EUTRAN_FREQUENCY_INDEX, 3 *)
  (DUnion false 2%nat 33 1                                      (* M_UNION *)
  (DUint 4 36 1 false                                           (* M_UINT u.EUTRAN_Qmin, 4 *)
  (DType 36 28 false Reselection_Based_On_RSRQ_t                (* M_TYPE u.Reselection_Based_On_RSRQ, Reselection_Based_On_RSRQ_t *)
  DEnd)))).
(** csn1_ts_44_060.c:2812-2814; the structure: csn1_defs.h:4359. *)
Definition Enh_Cell_Reselect_Param_Desp_t : descr :=
  (DRecTArr false 0 4 2048 64 32 Rept_EUTRAN_Enh_Cell_Resel_Param_t (* M_REC_TARRAY Repeated_EUTRAN_Enhanced_Cell_Reselection_Parameters, Rept_EUTRAN_Enh_Cell_Resel_Param_t, Count *)
  DEnd).
(** csn1_ts_44_060.c:2817-2823; the structure: csn1_defs.h:4368. *)
Definition UTRAN_CSG_Cells_Reporting_Desp_t : descr :=
  (DNext false 2%nat 0 4 false                                  (* M_NEXT_EXIST existUTRAN_CSG_FDD_REPORTING_THRESHOLD, 2 *)
  (DUint 3 4 1 false                                            (* M_UINT UTRAN_CSG_FDD_REPORTING_THRESHOLD, 3 *)
  (DUint 6 5 1 false                                            (* M_UINT UTRAN_CSG_FDD_REPORTING_THRESHOLD_2, 6 *)
  (DNext false 1%nat 8 4 false                                  (* M_NEXT_EXIST existUTRAN_CSG_TDD_REPORTING_THRESHOLD, 1 *)
  (DUint 3 12 1 false                                           (* M_UINT UTRAN_CSG_TDD_REPORTING_THRESHOLD, 3 *)
  DEnd))))).
(** csn1_ts_44_060.c:2826-2833; the structure: csn1_defs.h:4378. *)
Definition EUTRAN_CSG_Cells_Reporting_Desp_t : descr :=
  (DNext false 2%nat 0 4 false                                  (* M_NEXT_EXIST existEUTRAN_CSG_FDD_REPORTING_THRESHOLD, 2 *)
  (DUint 3 4 1 false                                            (* M_UINT EUTRAN_CSG_FDD_REPORTING_THRESHOLD, 3 *)
  (DUint 6 5 1 false                                            (* M_UINT EUTRAN_CSG_FDD_REPORTING_THRESHOLD_2, 6 *)
  (DNext false 2%nat 8 4 false                                  (* M_NEXT_EXIST existEUTRAN_CSG_TDD_REPORTING_THRESHOLD, 2 *)
  (DUint 3 12 1 false                                           (* M_UINT EUTRAN_CSG_TDD_REPORTING_THRESHOLD, 3 *)
  (DUint 6 13 1 false                                           (* M_UINT EUTRAN_CSG_TDD_REPORTING_THRESHOLD_2, 6 *)
  DEnd)))))).
(** csn1_ts_44_060.c:2837-2842; the structure: csn1_defs.h:4386. *)
Definition CSG_Cells_Reporting_Desp_t : descr :=
  (DNext false 1%nat 0 4 false                                  (* M_NEXT_EXIST existUTRAN_CSG_Cells_Reporting_Description, 1 *)
  (DType 4 16 false UTRAN_CSG_Cells_Reporting_Desp_t            (* M_TYPE UTRAN_CSG_Cells_Reporting_Description, UTRAN_CSG_Cells_Reporting_Desp_t *)
  (DNext false 1%nat 20 4 false                                 (* M_NEXT_EXIST existEUTRAN_CSG_Cells_Reporting_Description, 1 *)
  (DType 24 16 false EUTRAN_CSG_Cells_Reporting_Desp_t          (* M_TYPE EUTRAN_CSG_Cells_Reporting_Description, EUTRAN_CSG_Cells_Reporting_Desp_t *)
  DEnd)))).
(** csn1_ts_44_060.c:2917-2922; the structure: csn1_defs.h:4395. *)
Definition PMO_AdditionsR9_t : descr :=
  (DNext false 1%nat 0 4 false                                  (* M_NEXT_EXIST existEnhanced_Cell_Reselection_Parameters_Description, 1 *)
  (DType 4 2052 false Enh_Cell_Reselect_Param_Desp_t            (* M_TYPE Enhanced_Cell_Reselection_Parameters_Description, Enh_Cell_Reselect_Param_Desp_t *)
  (DNext false 1%nat 2056 4 false                               (* M_NEXT_EXIST existCSG_Cells_Reporting_Description, 1 *)
  (DType 2060 40 false CSG_Cells_Reporting_Desp_t               (* M_TYPE CSG_Cells_Reporting_Description, CSG_Cells_Reporting_Desp_t *)
  DEnd)))).
(** csn1_ts_44_060.c:2925-2941; the structure: csn1_defs.h:4492. *)
Definition PMO_AdditionsR8_t : descr :=
  (DNext false 2%nat 0 4 false                                  (* M_NEXT_EXIST existBA_IND_3G_PMO_IND, 2 *)
  (DUint 1 4 1 false                                            (* M_UINT BA_IND_3G, 1 *)
  (DUint 1 5 1 false                                            (* M_UINT PMO_IND, 1 *)
  (DNext false 1%nat 8 4 false                                  (* M_NEXT_EXIST existPriorityAndEUTRAN_ParametersDescription_PMO, 1 *)
  (DType 12 26624 false PriorityAndEUTRAN_ParametersDescription_PMO_t (* M_TYPE PriorityAndEUTRAN_ParametersDescription_PMO, PriorityAndEUTRAN_ParametersDescription_PMO_t *)
  (DNext false 1%nat 26636 4 false                              (* M_NEXT_EXIST existIndividualPriorities_PMO, 1 *)
  (DType 26640 4432 false Individual_Priorities_t               (* M_TYPE IndividualPriorities_PMO, Individual_Priorities_t *)
  (DNext false 1%nat 31072 4 false                              (* M_NEXT_EXIST existThreeG_CSG_Description, 1 *)
  (DType 31076 11524 false ThreeG_CSG_Description_t             (* M_TYPE ThreeG_CSG_Description_PMO, ThreeG_CSG_Description_t *)
  (DNext false 1%nat 42600 4 false                              (* M_NEXT_EXIST existEUTRAN_CSG_Description, 1 *)
  (DType 42604 11524 false EUTRAN_CSG_Description_t             (* M_TYPE EUTRAN_CSG_Description_PMO, EUTRAN_CSG_Description_t *)
  (DNext false 1%nat 54128 4 false                              (* M_NEXT_EXIST existMeasurement_Control_Parameters_Description, 1 *)
  (DType 54132 88 false Meas_Ctrl_Param_Desp_t                  (* M_TYPE Measurement_Control_Parameters_Description_PMO, Meas_Ctrl_Param_Desp_t *)
  (DNext false 1%nat 54220 4 true                               (* M_NEXT_EXIST_OR_NULL existAdditionsR9, 1 *)
  (DType 54224 2100 false PMO_AdditionsR9_t                     (* M_TYPE AdditionsR9, PMO_AdditionsR9_t *)
  DEnd))))))))))))))).
(** csn1_ts_44_060.c:2944-2955; the structure: csn1_defs.h:4506. *)
Definition PMO_AdditionsR7_t : descr :=
  (DNext false 2%nat 0 4 false                                  (* M_NEXT_EXIST existREPORTING_OFFSET_THRESHOLD_700, 2 *)
  (DUint 3 4 1 false                                            (* M_UINT REPORTING_OFFSET_700, 3 *)
  (DUint 3 5 1 false                                            (* M_UINT REPORTING_THRESHOLD_700, 3 *)
  (DNext false 2%nat 8 4 false                                  (* M_NEXT_EXIST existREPORTING_OFFSET_THRESHOLD_810, 2 *)
  (DUint 3 12 1 false                                           (* M_UINT REPORTING_OFFSET_810, 3 *)
  (DUint 3 13 1 false                                           (* M_UINT REPORTING_THRESHOLD_810, 3 *)
  (DNext false 1%nat 14 1 true                                  (* M_NEXT_EXIST_OR_NULL existAdditionsR8, 1 *)
  (DType 16 56324 false PMO_AdditionsR8_t                       (* M_TYPE additionsR8, PMO_AdditionsR8_t *)
  DEnd)))))))).
(** csn1_ts_44_060.c:2958-2962; the structure: csn1_defs.h:4513. *)
Definition PMO_AdditionsR6_t : descr :=
  (DUint 1 0 1 false                                            (* M_UINT CCN_ACTIVE_3G, 1 *)
  (DNext false 1%nat 1 1 true                                   (* M_NEXT_EXIST_OR_NULL existAdditionsR7, 1 *)
  (DType 4 56340 false PMO_AdditionsR7_t                        (* M_TYPE additionsR7, PMO_AdditionsR7_t *)
  DEnd))).
(** csn1_ts_44_060.c:2970-2981; the structure: csn1_defs.h:4533. *)
Definition PMO_AdditionsR5_t : descr :=
  (DNext false 1%nat 0 1 false                                  (* M_NEXT_EXIST existGRNTI_Extension, 1 *)
  (DUint 4 1 1 false                                            (* M_UINT GRNTI, 4 *)
  (DNext false 1%nat 2 1 false                                  (* M_NEXT_EXIST exist_lu_ModeNeighbourCellParams, 1 *)
  (DRecTArr false 3 4 6368 199 32 lu_ModeNeighbourCellParams_t  (* M_REC_TARRAY lu_ModeNeighbourCellParams, lu_ModeNeighbourCellParams_t, count_lu_ModeNeighbourCellParams *)
  (DNext false 1%nat 6372 1 false                               (* M_NEXT_EXIST existNC_lu_ModeOnlyCapableCellList, 1 *)
  (DType 6376 29444 false NC_lu_ModeOnlyCapableCellList_t       (* M_TYPE NC_lu_ModeOnlyCapableCellList, NC_lu_ModeOnlyCapableCellList_t *)
  (DNext false 1%nat 35820 1 false                              (* M_NEXT_EXIST existGPRS_AdditionalMeasurementParams3G, 1 *)
  (DType 35821 2 false GPRS_AdditionalMeasurementParams3G_t     (* M_TYPE GPRS_AdditionalMeasurementParams3G, GPRS_AdditionalMeasurementParams3G_t *)
  (DNext false 1%nat 35823 1 true                               (* M_NEXT_EXIST_OR_NULL existAdditionsR6, 1 *)
  (DType 35824 56344 false PMO_AdditionsR6_t                    (* M_TYPE additionsR6, PMO_AdditionsR6_t *)
  DEnd)))))))))).
(** csn1_ts_44_060.c:2998-3004; the structure: csn1_defs.h:4557. *)
Definition PMO_AdditionsR4_t : descr :=
  (DUint 1 0 1 false                                            (* M_UINT CCN_ACTIVE, 1 *)
  (DNext false 1%nat 1 1 false                                  (* M_NEXT_EXIST Exist_CCN_Support_Description_ID, 1 *)
  (DType 2 17 false CCN_Support_Description_t                   (* M_TYPE CCN_Support_Description, CCN_Support_Description_t *)
  (DNext false 1%nat 19 1 true                                  (* M_NEXT_EXIST_OR_NULL Exist_AdditionsR5, 1 *)
  (DType 20 92168 false PMO_AdditionsR5_t                       (* M_TYPE AdditionsR5, PMO_AdditionsR5_t *)
  DEnd))))).
(** csn1_ts_44_060.c:3007-3012; the structure: csn1_defs.h:4583. *)
Definition PMO_AdditionsR99_t : descr :=
  (DNext false 1%nat 0 1 false                                  (* M_NEXT_EXIST Exist_ENH_Measurement_Parameters, 1 *)
  (DType 4 924 false ENH_Measurement_Parameters_PMO_t           (* M_TYPE ENH_Measurement_Parameters, ENH_Measurement_Parameters_PMO_t *)
  (DNext false 1%nat 928 1 true                                 (* M_NEXT_EXIST_OR_NULL Exist_AdditionsR4, 1 *)
  (DType 932 92188 false PMO_AdditionsR4_t                      (* M_TYPE AdditionsR4, PMO_AdditionsR4_t *)
  DEnd)))).
(** csn1_ts_44_060.c:3051-3057; the structure: csn1_defs.h:4592. *)
Definition PMO_AdditionsR98_t : descr :=
  (DNext false 1%nat 0 1 false                                  (* M_NEXT_EXIST Exist_LSA_Parameters, 1 *)
  (DType 1 1057 false LSA_Parameters_t                          (* M_TYPE LSA_Parameters, LSA_Parameters_t *)
  (DNext false 1%nat 1058 1 true                                (* M_NEXT_EXIST_OR_NULL Exist_AdditionsR99, 1 *)
  (DType 1060 93120 false PMO_AdditionsR99_t                    (* M_TYPE AdditionsR99, PMO_AdditionsR99_t *)
  DEnd)))).
(** csn1_ts_44_060.c:3387-3406; the structure: csn1_defs.h:4753. *)
Definition Packet_Measurement_Order_t : descr :=
  (DUint 6 0 1 false                                            (* M_UINT MESSAGE_TYPE, 6 *)
  (DUint 2 1 1 false                                            (* M_UINT PAGE_MODE, 2 *)
  (DType 4 8 false PacketDownlinkID_t                           (* M_TYPE ID, PacketDownlinkID_t *)
  (DUint 3 12 1 false                                           (* M_UINT PMO_INDEX, 3 *)
  (DUint 3 13 1 false                                           (* M_UINT PMO_COUNT, 3 *)
  (DNext false 1%nat 14 1 false                                 (* M_NEXT_EXIST Exist_NC_Measurement_Parameters, 1 *)
  (DType 16 29484 false NC_Measurement_Parameters_with_Frequency_List_t (* M_TYPE NC_Measurement_Parameters, NC_Measurement_Parameters_with_Frequency_List_t *)
  (DNext false 1%nat 29500 1 false                              (* M_NEXT_EXIST Exist_EXT_Measurement_Parameters, 1 *)
  (DFixed 2 0                                                   (* M_FIXED 2, 0x0 *)
  (DNext false 1%nat 29501 1 true                               (* M_NEXT_EXIST_OR_NULL Exist_AdditionsR98, 1 *)
  (DType 29504 94180 false PMO_AdditionsR98_t                   (* M_TYPE AdditionsR98, PMO_AdditionsR98_t *)
  (DPad                                                         (* M_PADDING_BITS *)
  DEnd)))))))))))).
(** csn1_ts_44_060.c:3580-3582; the structure: csn1_defs.h:4688. *)
Definition PNCD_Container_Without_ID_t : descr :=
  (DUintArr 8 19 0 19                                           (* M_UINT_ARRAY CONTAINER, 8, 19 *)
  DEnd).
(** csn1_ts_44_060.c:3573-3577; the structure: csn1_defs.h:4683. *)
Definition PNCD_Container_With_ID_t : descr :=
  (DUint 10 0 2 false                                           (* M_UINT ARFCN, 10 *)
  (DUint 6 2 1 false                                            (* M_UINT BSIC, 6 *)
  (DUintArr 8 17 3 17                                           (* M_UINT_ARRAY CONTAINER, 8, 17 *)
  DEnd))).
(** csn1_ts_44_060.c:3585-3589, the list of alternatives. *)
Definition ch_PNCDContainer : descr :=
  (DAlt 1 0 false (DType 2 19 false PNCD_Container_Without_ID_t DEnd)
  (DAlt 1 1 false (DType 2 20 false PNCD_Container_With_ID_t DEnd)
  DEnd)).
(** csn1_ts_44_060.c:3592-3594; the structure: csn1_defs.h:4698. *)
Definition PNCDContainer_t : descr :=
  (DChoice 0 1 ch_PNCDContainer                                 (* M_CHOICE UnionType, PNCDContainer, ElementsOf(PNCDContainer) *)
  DEnd).
(** csn1_ts_44_060.c:3597-3609; the structure: csn1_defs.h:4711. *)
Definition Packet_Neighbour_Cell_Data_t : descr :=
  (DUint 6 0 1 false                                            (* M_UINT MESSAGE_TYPE, 6 *)
  (DUint 2 1 1 false                                            (* M_UINT PAGE_MODE, 2 *)
  (DFixed 1 0                                                   (* M_FIXED 1, 0x00 *)
  (DType 2 2 false Global_TFI_t                                 (* M_TYPE Global_TFI, Global_TFI_t *)
  (DUint 2 4 1 false                                            (* M_UINT CONTAINER_ID, 2 *)
  (DUint 1 5 1 false                                            (* M_UINT spare, 1 *)
  (DUint 5 6 1 false                                            (* M_UINT CONTAINER_INDEX, 5 *)
  (DType 8 22 false PNCDContainer_t                             (* M_TYPE Container, PNCDContainer_t *)
  (DPad                                                         (* M_PADDING_BITS *)
  DEnd))))))))).
(** csn1_ts_44_060.c:3613-3623; the structure: csn1_defs.h:4723. *)
Definition Packet_Serving_Cell_Data_t : descr :=
  (DUint 6 0 1 false                                            (* M_UINT MESSAGE_TYPE, 6 *)
  (DUint 2 1 1 false                                            (* M_UINT PAGE_MODE, 2 *)
  (DFixed 1 0                                                   (* M_FIXED 1, 0x00 *)
  (DType 2 2 false Global_TFI_t                                 (* M_TYPE Global_TFI, Global_TFI_t *)
  (DUint 4 4 1 false                                            (* M_UINT spare, 4 *)
  (DUint 5 5 1 false                                            (* M_UINT CONTAINER_INDEX, 5 *)
  (DUintArr 8 19 6 19                                           (* M_UINT_ARRAY CONTAINER, 8, 19 *)
  (DPad                                                         (* M_PADDING_BITS *)
  DEnd)))))))).
(** csn1_ts_44_060.c:1598-1601; the structure: csn1_ts_44_060.c:1595. *)
Definition Mobile_Identity_t : descr :=
  (DUint 4 0 1 false                                            (* M_UINT Length_of_Mobile_Identity_contents, 4 *)
  (DVarArr 0 0 1 8                                              (* M_VAR_ARRAY Mobile_Identity, Length_of_Mobile_Identity_contents, 0 *)
  DEnd)).
(** csn1_ts_44_060.c:1604-1608; the structure: csn1_defs.h:2471. *)
Definition Page_request_for_TBF_establishment_t : descr :=
  (DUnion false 2%nat 0 1                                       (* M_UNION *)
  (DUintArr 8 4 1 4                                             (* M_UINT_ARRAY u.PTMSI, 8, 4 *)
  (DType 1 10 false Mobile_Identity_t                           (* M_TYPE u.Mobile_Identity, Mobile_Identity_t *)
  DEnd))).
(** csn1_ts_44_060.c:1611-1620; the structure: csn1_defs.h:2486. *)
Definition Page_request_for_RR_conn_t : descr :=
  (DUnion false 2%nat 0 1                                       (* M_UNION *)
  (DUintArr 8 4 1 4                                             (* M_UINT_ARRAY u.TMSI, 8, 4 *)
  (DType 1 10 false Mobile_Identity_t                           (* M_TYPE u.Mobile_Identity, Mobile_Identity_t *)
  (DUint 2 11 1 false                                           (* M_UINT CHANNEL_NEEDED, 2 *)
  (DNext false 1%nat 12 1 false                                 (* M_NEXT_EXIST Exist_eMLPP_PRIORITY, 1 *)
  (DUint 3 13 1 false                                           (* M_UINT eMLPP_PRIORITY, 3 *)
  DEnd)))))).
(** csn1_ts_44_060.c:1623-1627; the structure: csn1_defs.h:2496. *)
Definition Repeated_Page_info_t : descr :=
  (DUnion false 2%nat 0 1                                       (* M_UNION *)
  (DType 1 11 false Page_request_for_TBF_establishment_t        (* M_TYPE u.Page_req_TBF, Page_request_for_TBF_establishment_t *)
  (DType 1 14 false Page_request_for_RR_conn_t                  (* M_TYPE u.Page_req_RR, Page_request_for_RR_conn_t *)
  DEnd))).
(** csn1_ts_44_060.c:1630-1642; the structure: csn1_defs.h:2511. *)
Definition Packet_Paging_Request_t : descr :=
  (DUint 6 0 1 false                                            (* M_UINT MESSAGE_TYPE, 6 *)
  (DUint 2 1 1 false                                            (* M_UINT PAGE_MODE, 2 *)
  (DNext false 1%nat 2 1 false                                  (* M_NEXT_EXIST Exist_PERSISTENCE_LEVEL, 1 *)
  (DUintArr 4 4 3 4                                             (* M_UINT_ARRAY PERSISTENCE_LEVEL, 4, 4 *)
  (DNext false 1%nat 7 1 false                                  (* M_NEXT_EXIST Exist_NLN, 1 *)
  (DUint 2 8 1 false                                            (* M_UINT NLN, 2 *)
  (DRecTArr false 9 10 75 15 5 Repeated_Page_info_t             (* M_REC_TARRAY Repeated_Page_info, Repeated_Page_info_t, Count_Repeated_Page_info *)
  (DPad                                                         (* M_PADDING_BITS *)
  DEnd)))))))).
(** csn1_ts_44_060.c:1645-1652; the structure: csn1_defs.h:2519. *)
Definition Packet_PDCH_Release_t : descr :=
  (DUint 6 0 1 false                                            (* M_UINT MESSAGE_TYPE, 6 *)
  (DUint 2 1 1 false                                            (* M_UINT PAGE_MODE, 2 *)
  (DFixed 1 1                                                   (* M_FIXED 1, 0x01 *)
  (DUint 8 2 1 false                                            (* M_UINT TIMESLOTS_AVAILABLE, 8 *)
  (DPad                                                         (* M_PADDING_BITS *)
  DEnd))))).
(** csn1_ts_44_060.c:211-217, the list of alternatives. *)
Definition ch_PacketPollingID : descr :=
  (DAlt 1 0 false (DType 4 2 false Global_TFI_t DEnd)
  (DAlt 2 2 false (DUint 32 4 4 false DEnd)
  (DAlt 3 6 false (DUint 16 4 2 false DEnd)
  DEnd))).
(** csn1_ts_44_060.c:220-222; the structure: csn1_defs.h:921. *)
Definition PacketPollingID_t : descr :=
  (DChoice 0 1 ch_PacketPollingID                               (* M_CHOICE UnionType, PacketPollingID, ElementsOf(PacketPollingID) *)
  DEnd).
(** csn1_ts_44_060.c:225-231; the structure: csn1_defs.h:929. *)
Definition Packet_Polling_Request_t : descr :=
  (DUint 6 0 1 false                                            (* M_UINT MESSAGE_TYPE, 6 *)
  (DUint 2 1 1 false                                            (* M_UINT PAGE_MODE, 2 *)
  (DType 4 8 false PacketPollingID_t                            (* M_TYPE ID, PacketPollingID_t *)
  (DUint 1 12 1 false                                           (* M_UINT TYPE_OF_ACK, 1 *)
  (DPad                                                         (* M_PADDING_BITS *)
  DEnd))))).
(** csn1_ts_44_060.c:1669-1674, the list of alternatives. *)
Definition ch_PacketPowerControlTimingAdvanceID : descr :=
  (DAlt 1 0 false (DType 2 2 false Global_TFI_t DEnd)
  (DAlt 3 6 false (DUint 16 2 2 false DEnd)
  (DAlt 3 7 false (DType 2 4 false Packet_Request_Reference_t DEnd)
  DEnd))).
(** csn1_ts_44_060.c:1677-1679; the structure: csn1_defs.h:2531. *)
Definition PacketPowerControlTimingAdvanceID_t : descr :=
  (DChoice 0 1 ch_PacketPowerControlTimingAdvanceID             (* M_CHOICE UnionType, PacketPowerControlTimingAdvanceID, ElementsOf(PacketPowerControlTimingAdvanceID) *)
  DEnd).
(** csn1_ts_44_060.c:110-118; the structure: csn1_defs.h:117. *)
Definition Global_Power_Control_Parameters_t : descr :=
  (DUint 4 0 1 false                                            (* M_UINT ALPHA, 4 *)
  (DUint 5 1 1 false                                            (* M_UINT T_AVG_W, 5 *)
  (DUint 5 2 1 false                                            (* M_UINT T_AVG_T, 5 *)
  (DUint 4 3 1 false                                            (* M_UINT Pb, 4 *)
  (DUint 1 4 1 false                                            (* M_UINT PC_MEAS_CHAN, 1 *)
  (DUint 1 5 1 false                                            (* M_UINT INT_MEAS_CHANNEL_LIST_AVAIL, 1 *)
  (DUint 4 6 1 false                                            (* M_UINT N_AVG_I, 4 *)
  DEnd))))))).
(** csn1_ts_44_060.c:122-133; the structure: csn1_defs.h:131. *)
Definition Global_Packet_Timing_Advance_t : descr :=
  (DNext false 1%nat 0 1 false                                  (* M_NEXT_EXIST Exist_TIMING_ADVANCE_VALUE, 1 *)
  (DUint 6 1 1 false                                            (* M_UINT TIMING_ADVANCE_VALUE, 6 *)
  (DNext false 2%nat 2 1 false                                  (* M_NEXT_EXIST Exist_UPLINK_TIMING_ADVANCE, 2 *)
  (DUint 4 3 1 false                                            (* M_UINT UPLINK_TIMING_ADVANCE_INDEX, 4 *)
  (DUint 3 4 1 false                                            (* M_UINT UPLINK_TIMING_ADVANCE_TIMESLOT_NUMBER, 3 *)
  (DNext false 2%nat 5 1 false                                  (* M_NEXT_EXIST Exist_DOWNLINK_TIMING_ADVANCE, 2 *)
  (DUint 4 6 1 false                                            (* M_UINT DOWNLINK_TIMING_ADVANCE_INDEX, 4 *)
  (DUint 3 7 1 false                                            (* M_UINT DOWNLINK_TIMING_ADVANCE_TIMESLOT_NUMBER, 3 *)
  DEnd)))))))).
(** csn1_ts_44_060.c:1656-1659; the structure: csn1_defs.h:2537. *)
Definition GlobalTimingAndPower_t : descr :=
  (DType 0 8 false Global_Packet_Timing_Advance_t               (* M_TYPE Global_Packet_Timing_Advance, Global_Packet_Timing_Advance_t *)
  (DType 8 17 false Power_Control_Parameters_t                  (* M_TYPE Power_Control_Parameters, Power_Control_Parameters_t *)
  DEnd)).
(** csn1_ts_44_060.c:1662-1666; the structure: csn1_defs.h:2547. *)
Definition GlobalTimingOrPower_t : descr :=
  (DUnion false 2%nat 0 1                                       (* M_UNION *)
  (DType 1 8 false Global_Packet_Timing_Advance_t               (* M_TYPE u.Global_Packet_Timing_Advance, Global_Packet_Timing_Advance_t *)
  (DType 1 17 false Power_Control_Parameters_t                  (* M_TYPE u.Power_Control_Parameters, Power_Control_Parameters_t *)
  DEnd))).
(** csn1_ts_44_060.c:1682-1699; the structure: csn1_defs.h:2566. *)
Definition Packet_Power_Control_Timing_Advance_t : descr :=
  (DUint 6 0 1 false                                            (* M_UINT MESSAGE_TYPE, 6 *)
  (DUint 2 1 1 false                                            (* M_UINT PAGE_MODE, 2 *)
  (DType 2 6 false PacketPowerControlTimingAdvanceID_t          (* M_TYPE ID, PacketPowerControlTimingAdvanceID_t *)
  (DFixed 1 0                                                   (* M_FIXED 1, 0x00 *)
  (DNext false 1%nat 8 1 false                                  (* M_NEXT_EXIST Exist_Global_Power_Control_Parameters, 1 *)
  (DType 9 7 false Global_Power_Control_Parameters_t            (* M_TYPE Global_Power_Control_Parameters, Global_Power_Control_Parameters_t *)
  (DUnion false 2%nat 16 1                                      (* M_UNION *)
  (DType 17 25 false GlobalTimingAndPower_t                     (* M_TYPE u.GlobalTimingAndPower, GlobalTimingAndPower_t *)
  (DType 17 18 false GlobalTimingOrPower_t                      (* M_TYPE u.GlobalTimingOrPower, GlobalTimingOrPower_t *)
  (DPad                                                         (* M_PADDING_BITS *)
  DEnd)))))))))).
(** csn1_ts_44_060.c:1850-1857; the structure: csn1_defs.h:2700. *)
Definition PRACH_Control_t : descr :=
  (DUintArr 8 2 0 2                                             (* M_UINT_ARRAY ACC_CONTR_CLASS, 8, 2 *)
  (DUintArr 2 4 2 4                                             (* M_UINT_ARRAY MAX_RETRANS, 2, 4 *)
  (DUint 4 6 1 false                                            (* M_UINT S, 4 *)
  (DUint 4 7 1 false                                            (* M_UINT TX_INT, 4 *)
  (DNext false 1%nat 8 1 false                                  (* M_NEXT_EXIST Exist_PERSISTENCE_LEVEL, 1 *)
  (DUintArr 4 4 9 4                                             (* M_UINT_ARRAY PERSISTENCE_LEVEL, 4, 4 *)
  DEnd)))))).
(** csn1_ts_44_060.c:1959-1965; the structure: csn1_defs.h:3243. *)
Definition Packet_PRACH_Parameters_t : descr :=
  (DUint 6 0 1 false                                            (* M_UINT MESSAGE_TYPE, 6 *)
  (DUint 2 1 1 false                                            (* M_UINT PAGE_MODE, 2 *)
  (DType 2 13 false PRACH_Control_t                             (* M_TYPE PRACH_Control, PRACH_Control_t *)
  (DPad                                                         (* M_PADDING_BITS *)
  DEnd)))).
(** csn1_ts_44_060.c:1703-1712; the structure: csn1_defs.h:2577. *)
Definition Packet_Queueing_Notification_t : descr :=
  (DUint 6 0 1 false                                            (* M_UINT MESSAGE_TYPE, 6 *)
  (DUint 2 1 1 false                                            (* M_UINT PAGE_MODE, 2 *)
  (DFixed 3 7                                                   (* M_FIXED 3, 0x07 *)
  (DType 2 4 false Packet_Request_Reference_t                   (* M_TYPE Packet_Request_Reference, Packet_Request_Reference_t *)
  (DUint 16 6 2 false                                           (* M_UINT TQI, 16 *)
  (DPad                                                         (* M_PADDING_BITS *)
  DEnd)))))).
(** csn1_ts_44_060.c:1103-1106; the structure: csn1_defs.h:2069. *)
Definition Timeslot_Allocation_t : descr :=
  (DNext false 1%nat 0 1 false                                  (* M_NEXT_EXIST Exist, 1 *)
  (DUint 3 1 1 false                                            (* M_UINT USF_TN, 3 *)
  DEnd)).
(** csn1_ts_44_060.c:1109-1143; the structure: csn1_defs.h:2081. *)
Definition Timeslot_Allocation_Power_Ctrl_Param_t : descr :=
  (DUint 4 0 1 false                                            (* M_UINT ALPHA, 4 *)
  (DNext false 2%nat 1 1 false                                  (* M_NEXT_EXIST Slot[0].Exist, 2 *)
  (DUint 3 2 1 false                                            (* M_UINT Slot[0].USF_TN, 3 *)
  (DUint 5 3 1 false                                            (* M_UINT Slot[0].GAMMA_TN, 5 *)
  (DNext false 2%nat 4 1 false                                  (* M_NEXT_EXIST Slot[1].Exist, 2 *)
  (DUint 3 5 1 false                                            (* M_UINT Slot[1].USF_TN, 3 *)
  (DUint 5 6 1 false                                            (* M_UINT Slot[1].GAMMA_TN, 5 *)
  (DNext false 2%nat 7 1 false                                  (* M_NEXT_EXIST Slot[2].Exist, 2 *)
  (DUint 3 8 1 false                                            (* M_UINT Slot[2].USF_TN, 3 *)
  (DUint 5 9 1 false                                            (* M_UINT Slot[2].GAMMA_TN, 5 *)
  (DNext false 2%nat 10 1 false                                 (* M_NEXT_EXIST Slot[3].Exist, 2 *)
  (DUint 3 11 1 false                                           (* M_UINT Slot[3].USF_TN, 3 *)
  (DUint 5 12 1 false                                           (* M_UINT Slot[3].GAMMA_TN, 5 *)
  (DNext false 2%nat 13 1 false                                 (* M_NEXT_EXIST Slot[4].Exist, 2 *)
  (DUint 3 14 1 false                                           (* M_UINT Slot[4].USF_TN, 3 *)
  (DUint 5 15 1 false                                           (* M_UINT Slot[4].GAMMA_TN, 5 *)
  (DNext false 2%nat 16 1 false                                 (* M_NEXT_EXIST Slot[5].Exist, 2 *)
  (DUint 3 17 1 false                                           (* M_UINT Slot[5].USF_TN, 3 *)
  (DUint 5 18 1 false                                           (* M_UINT Slot[5].GAMMA_TN, 5 *)
  (DNext false 2%nat 19 1 false                                 (* M_NEXT_EXIST Slot[6].Exist, 2 *)
  (DUint 3 20 1 false                                           (* M_UINT Slot[6].USF_TN, 3 *)
  (DUint 5 21 1 false                                           (* M_UINT Slot[6].GAMMA_TN, 5 *)
  (DNext false 2%nat 22 1 false                                 (* M_NEXT_EXIST Slot[7].Exist, 2 *)
  (DUint 3 23 1 false                                           (* M_UINT Slot[7].USF_TN, 3 *)
  (DUint 5 24 1 false                                           (* M_UINT Slot[7].GAMMA_TN, 5 *)
  DEnd))))))))))))))))))))))))).
(** csn1_ts_44_060.c:1719-1737; the structure: csn1_defs.h:2581. *)
Definition TRDynamic_Allocation_t : descr :=
  (DUint 1 0 1 false                                            (* M_UINT Extended_Dynamic_Allocation, 1 *)
  (DNext false 2%nat 1 1 false                                  (* M_NEXT_EXIST Exist_P0, 2 *)
  (DUint 4 2 1 false                                            (* M_UINT P0, 4 *)
  (DUint 1 3 1 false                                            (* M_UINT PR_MODE, 1 *)
  (DUint 1 4 1 false                                            (* M_UINT USF_GRANULARITY, 1 *)
  (DNext false 1%nat 7 1 false                                  (* M_NEXT_EXIST Exist_RLC_DATA_BLOCKS_GRANTED, 1 *)
  (DUint 8 8 1 false                                            (* M_UINT RLC_DATA_BLOCKS_GRANTED, 8 *)
  (DNext false 1%nat 9 1 false                                  (* M_NEXT_EXIST Exist_TBF_Starting_Time, 1 *)
  (DType 10 6 false Starting_Frame_Number_t                     (* M_TYPE TBF_Starting_Time, Starting_Frame_Number_t *)
  (DUnion false 2%nat 16 1                                      (* M_UNION *)
  (DTArr (CFix 8) 17 16 2 Timeslot_Allocation_t                 (* M_TYPE_ARRAY u.Timeslot_Allocation, Timeslot_Allocation_t, 8 *)
  (DType 17 25 false Timeslot_Allocation_Power_Ctrl_Param_t     (* M_TYPE u.Timeslot_Allocation_Power_Ctrl_Param, Timeslot_Allocation_Power_Ctrl_Param_t *)
  DEnd)))))))))))).
(** csn1_ts_44_060.c:1741-1744; the structure: csn1_defs.h:2606. *)
Definition PTR_GPRS_AdditionsR99_t : descr :=
  (DNext false 1%nat 0 4 false                                  (* M_NEXT_EXIST Exist_Packet_Extended_Timing_Advance, 1 *)
  (DUint 2 4 1 false                                            (* M_UINT Packet_Extended_Timing_Advance, 2 *)
  DEnd)).
(** csn1_ts_44_060.c:1747-1770; the structure: csn1_defs.h:2623. *)
Definition PTR_GPRS_t : descr :=
  (DUint 2 0 1 false                                            (* M_UINT CHANNEL_CODING_COMMAND, 2 *)
  (DType 2 8 false Global_Packet_Timing_Advance_t               (* M_TYPE Common_Timeslot_Reconfigure_Data.Global_Packet_Timing_Advance, Global_Packet_Timing_Advance_t *)
  (DUint 1 10 1 false                                           (* M_UINT Common_Timeslot_Reconfigure_Data.DOWNLINK_RLC_MODE, 1 *)
  (DUint 1 11 1 false                                           (* M_UINT Common_Timeslot_Reconfigure_Data.CONTROL_ACK, 1 *)
  (DNext false 1%nat 12 1 false                                 (* M_NEXT_EXIST Common_Timeslot_Reconfigure_Data.Exist_DOWNLINK_TFI_ASSIGNMENT, 1 *)
  (DUint 5 13 1 false                                           (* M_UINT Common_Timeslot_Reconfigure_Data.DOWNLINK_TFI_ASSIGNMENT, 5 *)
  (DNext false 1%nat 14 1 false                                 (* M_NEXT_EXIST Common_Timeslot_Reconfigure_Data.Exist_UPLINK_TFI_ASSIGNMENT, 1 *)
  (DUint 5 15 1 false                                           (* M_UINT Common_Timeslot_Reconfigure_Data.UPLINK_TFI_ASSIGNMENT, 5 *)
  (DUint 8 16 1 false                                           (* M_UINT Common_Timeslot_Reconfigure_Data.DOWNLINK_TIMESLOT_ALLOCATION, 8 *)
  (DNext false 1%nat 17 1 false                                 (* M_NEXT_EXIST Common_Timeslot_Reconfigure_Data.Exist_Frequency_Parameters, 1 *)
  (DType 18 28 false Frequency_Parameters_t                     (* M_TYPE Common_Timeslot_Reconfigure_Data.Frequency_Parameters, Frequency_Parameters_t *)
  (DUnion false 2%nat 46 1                                      (* M_UNION *)
  (DType 48 42 false TRDynamic_Allocation_t                     (* M_TYPE u.Dynamic_Allocation, TRDynamic_Allocation_t *)
  (DTrap (-8)                                                   (* CSN_ERROR "1 - Fixed Allocation was removed", CSN_ERROR_STREAM_NOT_SUPPORTED *)
  (DNext false 1%nat 92 4 true                                  (* M_NEXT_EXIST_OR_NULL Exist_AdditionsR99, 1 *)
  (DType 96 8 false PTR_GPRS_AdditionsR99_t                     (* M_TYPE AdditionsR99, PTR_GPRS_AdditionsR99_t *)
  DEnd)))))))))))))))).
(** csn1_ts_44_060.c:1773-1810; the structure: csn1_defs.h:2652. *)
Definition PTR_EGPRS_00_t : descr :=
  (DNext false 1%nat 0 4 false                                  (* M_NEXT_EXIST Exist_COMPACT_ReducedMA, 1 *)
  (DType 4 28 false COMPACT_ReducedMA_t                         (* M_TYPE COMPACT_ReducedMA, COMPACT_ReducedMA_t *)
  (DUint 4 32 1 false                                           (* M_UINT EGPRS_ChannelCodingCommand, 4 *)
  (DUint 1 33 1 false                                           (* M_UINT RESEGMENT, 1 *)
  (DNext false 1%nat 36 4 false                                 (* M_NEXT_EXIST Exist_DOWNLINK_EGPRS_WindowSize, 1 *)
  (DUint 5 40 1 false                                           (* M_UINT DOWNLINK_EGPRS_WindowSize, 5 *)
  (DNext false 1%nat 44 4 false                                 (* M_NEXT_EXIST Exist_UPLINK_EGPRS_WindowSize, 1 *)
  (DUint 5 48 1 false                                           (* M_UINT UPLINK_EGPRS_WindowSize, 5 *)
  (DUint 2 49 1 false                                           (* M_UINT LINK_QUALITY_MEASUREMENT_MODE, 2 *)
  (DType 58 8 false Global_Packet_Timing_Advance_t              (* M_TYPE Common_Timeslot_Reconfigure_Data.Global_Packet_Timing_Advance, Global_Packet_Timing_Advance_t *)
  (DNext false 1%nat 52 4 false                                 (* M_NEXT_EXIST Exist_Packet_Extended_Timing_Advance, 1 *)
  (DUint 2 56 1 false                                           (* M_UINT Packet_Extended_Timing_Advance, 2 *)
  (DUint 1 66 1 false                                           (* M_UINT Common_Timeslot_Reconfigure_Data.DOWNLINK_RLC_MODE, 1 *)
  (DUint 1 67 1 false                                           (* M_UINT Common_Timeslot_Reconfigure_Data.CONTROL_ACK, 1 *)
  (DNext false 1%nat 68 1 false                                 (* M_NEXT_EXIST Common_Timeslot_Reconfigure_Data.Exist_DOWNLINK_TFI_ASSIGNMENT, 1 *)
  (DUint 5 69 1 false                                           (* M_UINT Common_Timeslot_Reconfigure_Data.DOWNLINK_TFI_ASSIGNMENT, 5 *)
  (DNext false 1%nat 70 1 false                                 (* M_NEXT_EXIST Common_Timeslot_Reconfigure_Data.Exist_UPLINK_TFI_ASSIGNMENT, 1 *)
  (DUint 5 71 1 false                                           (* M_UINT Common_Timeslot_Reconfigure_Data.UPLINK_TFI_ASSIGNMENT, 5 *)
  (DUint 8 72 1 false                                           (* M_UINT Common_Timeslot_Reconfigure_Data.DOWNLINK_TIMESLOT_ALLOCATION, 8 *)
  (DNext false 1%nat 73 1 false                                 (* M_NEXT_EXIST Common_Timeslot_Reconfigure_Data.Exist_Frequency_Parameters, 1 *)
  (DType 74 28 false Frequency_Parameters_t                     (* M_TYPE Common_Timeslot_Reconfigure_Data.Frequency_Parameters, Frequency_Parameters_t *)
  (DUnion false 2%nat 102 1                                     (* M_UNION *)
  (DType 104 42 false TRDynamic_Allocation_t                    (* M_TYPE u.Dynamic_Allocation, TRDynamic_Allocation_t *)
  (DTrap (-8)                                                   (* CSN_ERROR "1 <Fixed Allocation>", CSN_ERROR_STREAM_NOT_SUPPORTED *)
  DEnd)))))))))))))))))))))))).
(** csn1_ts_44_060.c:1813-1819; the structure: csn1_defs.h:2664. *)
Definition PTR_EGPRS_t : descr :=
  (DUnion false 4%nat 0 1                                       (* M_UNION *)
  (DType 4 148 false PTR_EGPRS_00_t                             (* M_TYPE u.PTR_EGPRS_00, PTR_EGPRS_00_t *)
  (DTrap (-8)                                                   (* CSN_ERROR "01 <PTR_EGPRS>", CSN_ERROR_STREAM_NOT_SUPPORTED *)
  (DTrap (-8)                                                   (* CSN_ERROR "10 <PTR_EGPRS>", CSN_ERROR_STREAM_NOT_SUPPORTED *)
  (DTrap (-8)                                                   (* CSN_ERROR "11 <PTR_EGPRS>", CSN_ERROR_STREAM_NOT_SUPPORTED *)
  DEnd))))).
(** csn1_ts_44_060.c:1822-1834; the structure: csn1_defs.h:2687. *)
Definition Packet_Timeslot_Reconfigure_t : descr :=
  (DUint 6 0 1 false                                            (* M_UINT MESSAGE_TYPE, 6 *)
  (DUint 2 1 1 false                                            (* M_UINT PAGE_MODE, 2 *)
  (DFixed 1 0                                                   (* M_FIXED 1, 0x00 *)
  (DType 2 2 false Global_TFI_t                                 (* M_TYPE Global_TFI, Global_TFI_t *)
  (DUnion false 2%nat 4 1                                       (* M_UNION *)
  (DType 8 104 false PTR_GPRS_t                                 (* M_TYPE u.PTR_GPRS_Struct, PTR_GPRS_t *)
  (DType 8 152 false PTR_EGPRS_t                                (* M_TYPE u.PTR_EGPRS_Struct, PTR_EGPRS_t *)
  (DPad                                                         (* M_PADDING_BITS *)
  DEnd)))))))).
(** csn1_ts_44_060.c:318-327; the structure: csn1_defs.h:1078. *)
Definition Packet_TBF_Release_t : descr :=
  (DUint 6 0 1 false                                            (* M_UINT MESSAGE_TYPE, 6 *)
  (DUint 2 1 1 false                                            (* M_UINT PAGE_MODE, 2 *)
  (DFixed 1 0                                                   (* M_FIXED 1, 0x00 *)
  (DType 2 2 false Global_TFI_t                                 (* M_TYPE Global_TFI, Global_TFI_t *)
  (DUint 1 4 1 false                                            (* M_UINT UPLINK_RELEASE, 1 *)
  (DUint 1 5 1 false                                            (* M_UINT DOWNLINK_RELEASE, 1 *)
  (DUint 4 6 1 false                                            (* M_UINT TBF_RELEASE_CAUSE, 4 *)
  (DPad                                                         (* M_PADDING_BITS *)
  DEnd)))))))).
(** csn1_ts_44_060.c:81-85; the structure: csn1_defs.h:84. *)
Definition Ack_Nack_Description_t : descr :=
  (DUint 1 0 1 false                                            (* M_UINT FINAL_ACK_INDICATION, 1 *)
  (DUint 7 1 1 false                                            (* M_UINT STARTING_SEQUENCE_NUMBER, 7 *)
  (DBitmap 64 2 8                                               (* M_BITMAP RECEIVED_BLOCK_BITMAP, 64 *)
  DEnd))).
(** csn1_ts_44_060.c:255-258; the structure: csn1_defs.h:938. *)
Definition Extension_Bits_t : descr :=
  (DUintOff 6 0 1 1                                             (* M_UINT_OFFSET extension_length, 6, 1 *)
  (DVarBmp true false 0 0 1 8                                   (* M_LEFT_VAR_BMP Extension_Info, extension_length, 0 *)
  DEnd)).
(** csn1_ts_44_060.c:969-974; the structure: csn1_defs.h:1947. *)
Definition PU_AckNack_GPRS_AdditionsR99_t : descr :=
  (DNext false 1%nat 0 4 false                                  (* M_NEXT_EXIST Exist_Packet_Extended_Timing_Advance, 1 *)
  (DUint 2 4 1 false                                            (* M_UINT Packet_Extended_Timing_Advance, 2 *)
  (DUint 1 5 1 false                                            (* M_UINT TBF_EST, 1 *)
  DEnd))).
(** csn1_ts_44_060.c:977-999; the structure: csn1_defs.h:1966. *)
Definition PU_AckNack_GPRS_t : descr :=
  (DUint 2 0 1 false                                            (* M_UINT CHANNEL_CODING_COMMAND, 2 *)
  (DType 1 10 false Ack_Nack_Description_t                      (* M_TYPE Ack_Nack_Description, Ack_Nack_Description_t *)
  (DNext false 1%nat 28 1 false                                 (* M_NEXT_EXIST Common_Uplink_Ack_Nack_Data.Exist_CONTENTION_RESOLUTION_TLLI, 1 *)
  (DUint 32 32 4 false                                          (* M_UINT Common_Uplink_Ack_Nack_Data.CONTENTION_RESOLUTION_TLLI, 32 *)
  (DNext false 1%nat 36 1 false                                 (* M_NEXT_EXIST Common_Uplink_Ack_Nack_Data.Exist_Packet_Timing_Advance, 1 *)
  (DType 37 5 false Packet_Timing_Advance_t                     (* M_TYPE Common_Uplink_Ack_Nack_Data.Packet_Timing_Advance, Packet_Timing_Advance_t *)
  (DNext false 1%nat 52 1 false                                 (* M_NEXT_EXIST Common_Uplink_Ack_Nack_Data.Exist_Power_Control_Parameters, 1 *)
  (DType 53 17 false Power_Control_Parameters_t                 (* M_TYPE Common_Uplink_Ack_Nack_Data.Power_Control_Parameters, Power_Control_Parameters_t *)
  (DNext false 1%nat 42 1 false                                 (* M_NEXT_EXIST Common_Uplink_Ack_Nack_Data.Exist_Extension_Bits, 1 *)
  (DType 43 9 false Extension_Bits_t                            (* M_TYPE Common_Uplink_Ack_Nack_Data.Extension_Bits, Extension_Bits_t *)
  (DUnion false 2%nat 11 1                                      (* M_UNION *)
  (DUint 1 12 1 false                                           (* M_UINT u.FixedAllocationDummy, 1 *)
  (DTrap (-8)                                                   (* CSN_ERROR "01 <Fixed Allocation>", CSN_ERROR_STREAM_NOT_SUPPORTED *)
  (DNext false 1%nat 16 4 true                                  (* M_NEXT_EXIST_OR_NULL Exist_AdditionsR99, 1 *)
  (DType 20 8 false PU_AckNack_GPRS_AdditionsR99_t              (* M_TYPE AdditionsR99, PU_AckNack_GPRS_AdditionsR99_t *)
  DEnd))))))))))))))).
(** csn1_ts_44_060.c:169-181; the structure: csn1_defs.h:466. *)
Definition EGPRS_AckNack_Desc_t : descr :=
  (DUint 1 0 1 false                                            (* M_UINT FINAL_ACK_INDICATION, 1 *)
  (DUint 1 1 1 false                                            (* M_UINT BEGINNING_OF_WINDOW, 1 *)
  (DUint 1 2 1 false                                            (* M_UINT END_OF_WINDOW, 1 *)
  (DUint 11 4 2 false                                           (* M_UINT STARTING_SEQUENCE_NUMBER, 11 *)
  (DNext false 3%nat 8 4 false                                  (* M_NEXT_EXIST Exist_CRBB, 3 *)
  (DUint 7 12 1 false                                           (* M_UINT CRBB_LENGTH, 7 *)
  (DUint 1 13 1 false                                           (* M_UINT CRBB_STARTING_COLOR_CODE, 1 *)
  (DVarBmp true false 0 12 14 16                                (* M_LEFT_VAR_BMP CRBB, CRBB_LENGTH, 0 *)
  (DVarBmp true true 0 30 32 42                                 (* M_LEFT_VAR_BMP_1 URBB, URBB_LENGTH, 0 *)
  DEnd))))))))).
(** csn1_ts_44_060.c:198-200; the structure: csn1_defs.h:478. *)
Definition EGPRS_AckNack_w_len_t : descr :=
  (DSer 8 0 76 EGPRS_AckNack_Desc_t                             (* M_SERIALIZE Desc, 8, Egprs_Ack_Nack_Desc_w_len_Dissector *)
  DEnd).
(** csn1_ts_44_060.c:203-207; the structure: csn1_defs.h:472. *)
Definition EGPRS_AckNack_t : descr :=
  (DUnion false 2%nat 0 1                                       (* M_UNION *)
  (DType 4 76 false EGPRS_AckNack_Desc_t                        (* M_TYPE Desc, EGPRS_AckNack_Desc_t *)
  (DType 4 76 false EGPRS_AckNack_w_len_t                       (* M_TYPE Desc, EGPRS_AckNack_w_len_t *)
  DEnd))).
(** csn1_ts_44_060.c:1002-1028; the structure: csn1_defs.h:1985. *)
Definition PU_AckNack_EGPRS_00_t : descr :=
  (DUint 4 0 1 false                                            (* M_UINT EGPRS_ChannelCodingCommand, 4 *)
  (DUint 1 1 1 false                                            (* M_UINT RESEGMENT, 1 *)
  (DUint 1 2 1 false                                            (* M_UINT PRE_EMPTIVE_TRANSMISSION, 1 *)
  (DUint 1 3 1 false                                            (* M_UINT PRR_RETRANSMISSION_REQUEST, 1 *)
  (DUint 1 4 1 false                                            (* M_UINT ARAC_RETRANSMISSION_REQUEST, 1 *)
  (DNext false 1%nat 96 1 false                                 (* M_NEXT_EXIST Common_Uplink_Ack_Nack_Data.Exist_CONTENTION_RESOLUTION_TLLI, 1 *)
  (DUint 32 100 4 false                                         (* M_UINT Common_Uplink_Ack_Nack_Data.CONTENTION_RESOLUTION_TLLI, 32 *)
  (DUint 1 5 1 false                                            (* M_UINT TBF_EST, 1 *)
  (DNext false 1%nat 104 1 false                                (* M_NEXT_EXIST Common_Uplink_Ack_Nack_Data.Exist_Packet_Timing_Advance, 1 *)
  (DType 105 5 false Packet_Timing_Advance_t                    (* M_TYPE Common_Uplink_Ack_Nack_Data.Packet_Timing_Advance, Packet_Timing_Advance_t *)
  (DNext false 1%nat 8 4 false                                  (* M_NEXT_EXIST Exist_Packet_Extended_Timing_Advance, 1 *)
  (DUint 2 12 1 false                                           (* M_UINT Packet_Extended_Timing_Advance, 2 *)
  (DNext false 1%nat 120 1 false                                (* M_NEXT_EXIST Common_Uplink_Ack_Nack_Data.Exist_Power_Control_Parameters, 1 *)
  (DType 121 17 false Power_Control_Parameters_t                (* M_TYPE Common_Uplink_Ack_Nack_Data.Power_Control_Parameters, Power_Control_Parameters_t *)
  (DNext false 1%nat 110 1 false                                (* M_NEXT_EXIST Common_Uplink_Ack_Nack_Data.Exist_Extension_Bits, 1 *)
  (DType 111 9 false Extension_Bits_t                           (* M_TYPE Common_Uplink_Ack_Nack_Data.Extension_Bits, Extension_Bits_t *)
  (DType 16 80 false EGPRS_AckNack_t                            (* M_TYPE EGPRS_AckNack, EGPRS_AckNack_t *)
  DEnd))))))))))))))))).
(** csn1_ts_44_060.c:1031-1038; the structure: csn1_defs.h:1997. *)
Definition PU_AckNack_EGPRS_t : descr :=
  (DUnion false 4%nat 0 1                                       (* M_UNION *)
  (DType 4 140 false PU_AckNack_EGPRS_00_t                      (* M_TYPE u.PU_AckNack_EGPRS_00, PU_AckNack_EGPRS_00_t *)
  (DTrap (-8)                                                   (* CSN_ERROR "01 <PU_AckNack_EGPRS>", CSN_ERROR_STREAM_NOT_SUPPORTED *)
  (DTrap (-8)                                                   (* CSN_ERROR "10 <PU_AckNack_EGPRS>", CSN_ERROR_STREAM_NOT_SUPPORTED *)
  (DTrap (-8)                                                   (* CSN_ERROR "11 <PU_AckNack_EGPRS>", CSN_ERROR_STREAM_NOT_SUPPORTED *)
  DEnd))))).
(** csn1_ts_44_060.c:1041-1051; the structure: csn1_defs.h:2019. *)
Definition Packet_Uplink_Ack_Nack_t : descr :=
  (DUint 6 0 1 false                                            (* M_UINT MESSAGE_TYPE, 6 *)
  (DUint 2 1 1 false                                            (* M_UINT PAGE_MODE, 2 *)
  (DFixed 2 0                                                   (* M_FIXED 2, 0x00 *)
  (DUint 5 2 1 false                                            (* M_UINT UPLINK_TFI, 5 *)
  (DUnion false 2%nat 3 1                                       (* M_UNION *)
  (DType 4 72 false PU_AckNack_GPRS_t                           (* M_TYPE u.PU_AckNack_GPRS_Struct, PU_AckNack_GPRS_t *)
  (DType 4 144 false PU_AckNack_EGPRS_t                         (* M_TYPE u.PU_AckNack_EGPRS_Struct, PU_AckNack_EGPRS_t *)
  (DPad                                                         (* M_PADDING_BITS *)
  DEnd)))))))).
(** csn1_ts_44_060.c:1279-1285, the list of alternatives. *)
Definition ch_PacketUplinkID : descr :=
  (DAlt 1 0 false (DType 4 2 false Global_TFI_t DEnd)
  (DAlt 2 2 false (DUint 32 4 4 false DEnd)
  (DAlt 3 6 false (DUint 16 4 2 false DEnd)
  (DAlt 3 7 false (DType 4 4 false Packet_Request_Reference_t DEnd)
  DEnd)))).
(** csn1_ts_44_060.c:1288-1290; the structure: csn1_defs.h:2175. *)
Definition PacketUplinkID_t : descr :=
  (DChoice 0 1 ch_PacketUplinkID                                (* M_CHOICE UnionType, PacketUplinkID, ElementsOf(PacketUplinkID) *)
  DEnd).
(** csn1_ts_44_060.c:1147-1168; the structure: csn1_defs.h:2108. *)
Definition Dynamic_Allocation_t : descr :=
  (DUint 1 0 1 false                                            (* M_UINT Extended_Dynamic_Allocation, 1 *)
  (DNext false 2%nat 1 1 false                                  (* M_NEXT_EXIST Exist_P0, 2 *)
  (DUint 4 2 1 false                                            (* M_UINT P0, 4 *)
  (DUint 1 3 1 false                                            (* M_UINT PR_MODE, 1 *)
  (DUint 1 4 1 false                                            (* M_UINT USF_GRANULARITY, 1 *)
  (DNext false 1%nat 5 1 false                                  (* M_NEXT_EXIST Exist_UPLINK_TFI_ASSIGNMENT, 1 *)
  (DUint 5 6 1 false                                            (* M_UINT UPLINK_TFI_ASSIGNMENT, 5 *)
  (DNext false 1%nat 7 1 false                                  (* M_NEXT_EXIST Exist_RLC_DATA_BLOCKS_GRANTED, 1 *)
  (DUint 8 8 1 false                                            (* M_UINT RLC_DATA_BLOCKS_GRANTED, 8 *)
  (DNext false 1%nat 9 1 false                                  (* M_NEXT_EXIST Exist_TBF_Starting_Time, 1 *)
  (DType 10 6 false Starting_Frame_Number_t                     (* M_TYPE TBF_Starting_Time, Starting_Frame_Number_t *)
  (DUnion false 2%nat 16 1                                      (* M_UNION *)
  (DTArr (CFix 8) 17 16 2 Timeslot_Allocation_t                 (* M_TYPE_ARRAY u.Timeslot_Allocation, Timeslot_Allocation_t, 8 *)
  (DType 17 25 false Timeslot_Allocation_Power_Ctrl_Param_t     (* M_TYPE u.Timeslot_Allocation_Power_Ctrl_Param, Timeslot_Allocation_Power_Ctrl_Param_t *)
  DEnd)))))))))))))).
(** csn1_ts_44_060.c:1171-1184; the structure: csn1_defs.h:2148. *)
Definition Single_Block_Allocation_t : descr :=
  (DUint 3 0 1 false                                            (* M_UINT TIMESLOT_NUMBER, 3 *)
  (DNext false 2%nat 1 1 false                                  (* M_NEXT_EXIST Exist_ALPHA_and_GAMMA_TN, 2 *)
  (DUint 4 2 1 false                                            (* M_UINT ALPHA, 4 *)
  (DUint 5 3 1 false                                            (* M_UINT GAMMA_TN, 5 *)
  (DNext false 3%nat 4 1 false                                  (* M_NEXT_EXIST Exist_P0, 3 *)
  (DUint 4 5 1 false                                            (* M_UINT P0, 4 *)
  (DUint 1 6 1 false                                            (* M_UINT BTS_PWR_CTRL_MODE, 1 *)
  (DUint 1 7 1 false                                            (* M_UINT PR_MODE, 1 *)
  (DType 8 6 false Starting_Frame_Number_t                      (* M_TYPE TBF_Starting_Time, Starting_Frame_Number_t *)
  DEnd))))))))).
(** csn1_ts_44_060.c:1293-1296; the structure: csn1_defs.h:2181. *)
Definition PUA_GPRS_AdditionsR99_t : descr :=
  (DNext false 1%nat 0 4 false                                  (* M_NEXT_EXIST Exist_Packet_Extended_Timing_Advance, 1 *)
  (DUint 2 4 1 false                                            (* M_UINT Packet_Extended_Timing_Advance, 2 *)
  DEnd)).
(** csn1_ts_44_060.c:1299-1315; the structure: csn1_defs.h:2203. *)
Definition PUA_GPRS_t : descr :=
  (DUint 2 0 1 false                                            (* M_UINT CHANNEL_CODING_COMMAND, 2 *)
  (DUint 1 1 1 false                                            (* M_UINT TLLI_BLOCK_CHANNEL_CODING, 1 *)
  (DType 2 5 false Packet_Timing_Advance_t                      (* M_TYPE Packet_Timing_Advance, Packet_Timing_Advance_t *)
  (DNext false 1%nat 7 1 false                                  (* M_NEXT_EXIST Exist_Frequency_Parameters, 1 *)
  (DType 8 28 false Frequency_Parameters_t                      (* M_TYPE Frequency_Parameters, Frequency_Parameters_t *)
  (DUnion false 4%nat 36 1                                      (* M_UNION *)
  (DTrap (-8)                                                   (* CSN_ERROR "00 <extension> not implemented", CSN_ERROR_STREAM_NOT_SUPPORTED *)
  (DType 38 42 false Dynamic_Allocation_t                       (* M_TYPE u.Dynamic_Allocation, Dynamic_Allocation_t *)
  (DType 38 14 false Single_Block_Allocation_t                  (* M_TYPE u.Single_Block_Allocation, Single_Block_Allocation_t *)
  (DTrap (-8)                                                   (* CSN_ERROR "11 <Fixed Allocation> not supported", CSN_ERROR_STREAM_NOT_SUPPORTED *)
  (DNext false 1%nat 80 4 true                                  (* M_NEXT_EXIST_OR_NULL Exist_AdditionsR99, 1 *)
  (DType 84 8 false PUA_GPRS_AdditionsR99_t                     (* M_TYPE AdditionsR99, PUA_GPRS_AdditionsR99_t *)
  DEnd)))))))))))).
(** csn1_ts_44_060.c:1327-1341; the structure: csn1_defs.h:2229. *)
Definition MultiBlock_Allocation_t : descr :=
  (DUint 3 0 1 false                                            (* M_UINT TIMESLOT_NUMBER, 3 *)
  (DNext false 2%nat 4 4 false                                  (* M_NEXT_EXIST Exist_ALPHA_GAMMA_TN, 2 *)
  (DUint 4 8 1 false                                            (* M_UINT ALPHA, 4 *)
  (DUint 5 9 1 false                                            (* M_UINT GAMMA_TN, 5 *)
  (DNext false 3%nat 12 4 false                                 (* M_NEXT_EXIST Exist_P0_BTS_PWR_CTRL_PR_MODE, 3 *)
  (DUint 4 16 1 false                                           (* M_UINT P0, 4 *)
  (DUint 1 17 1 false                                           (* M_UINT BTS_PWR_CTRL_MODE, 1 *)
  (DUint 1 18 1 false                                           (* M_UINT PR_MODE, 1 *)
  (DType 20 6 false Starting_Frame_Number_t                     (* M_TYPE TBF_Starting_Time, Starting_Frame_Number_t *)
  (DUint 2 26 1 false                                           (* M_UINT NUMBER_OF_RADIO_BLOCKS_ALLOCATED, 2 *)
  DEnd)))))))))).
(** csn1_ts_44_060.c:1344-1376; the structure: csn1_defs.h:2268. *)
Definition PUA_EGPRS_00_t : descr :=
  (DNext false 1%nat 0 4 false                                  (* M_NEXT_EXIST Exist_CONTENTION_RESOLUTION_TLLI, 1 *)
  (DUint 32 4 4 false                                           (* M_UINT CONTENTION_RESOLUTION_TLLI, 32 *)
  (DNext false 1%nat 8 4 false                                  (* M_NEXT_EXIST Exist_COMPACT_ReducedMA, 1 *)
  (DType 12 28 false COMPACT_ReducedMA_t                        (* M_TYPE COMPACT_ReducedMA, COMPACT_ReducedMA_t *)
  (DUint 4 40 1 false                                           (* M_UINT EGPRS_CHANNEL_CODING_COMMAND, 4 *)
  (DUint 1 41 1 false                                           (* M_UINT RESEGMENT, 1 *)
  (DUint 5 42 1 false                                           (* M_UINT EGPRS_WindowSize, 5 *)
  (DRecArr 4 43 44 12                                           (* M_REC_ARRAY AccessTechnologyType, NrOfAccessTechnologies, 4 *)
  (DUint 1 56 1 false                                           (* M_UINT ARAC_RETRANSMISSION_REQUEST, 1 *)
  (DUint 1 57 1 false                                           (* M_UINT TLLI_BLOCK_CHANNEL_CODING, 1 *)
  (DNext false 1%nat 60 4 false                                 (* M_NEXT_EXIST Exist_BEP_PERIOD2, 1 *)
  (DUint 4 64 1 false                                           (* M_UINT BEP_PERIOD2, 4 *)
  (DType 65 5 false Packet_Timing_Advance_t                     (* M_TYPE Packet_Timing_Advance, Packet_Timing_Advance_t *)
  (DNext false 1%nat 72 4 false                                 (* M_NEXT_EXIST Exist_Packet_Extended_Timing_Advance, 1 *)
  (DUint 2 76 1 false                                           (* M_UINT Packet_Extended_Timing_Advance, 2 *)
  (DNext false 1%nat 80 4 false                                 (* M_NEXT_EXIST Exist_Frequency_Parameters, 1 *)
  (DType 84 28 false Frequency_Parameters_t                     (* M_TYPE Frequency_Parameters, Frequency_Parameters_t *)
  (DUnion false 4%nat 112 1                                     (* M_UNION *)
  (DTrap (-8)                                                   (* CSN_ERROR "00 <extension>", CSN_ERROR_STREAM_NOT_SUPPORTED *)
  (DType 116 42 false Dynamic_Allocation_t                      (* M_TYPE u.Dynamic_Allocation, Dynamic_Allocation_t *)
  (DType 116 28 false MultiBlock_Allocation_t                   (* M_TYPE u.MultiBlock_Allocation, MultiBlock_Allocation_t *)
  (DTrap (-8)                                                   (* CSN_ERROR "11 <Fixed Allocation>", CSN_ERROR_STREAM_NOT_SUPPORTED *)
  DEnd)))))))))))))))))))))).
(** csn1_ts_44_060.c:1379-1385; the structure: csn1_defs.h:2280. *)
Definition PUA_EGPRS_t : descr :=
  (DUnion false 4%nat 0 1                                       (* M_UNION *)
  (DType 4 160 false PUA_EGPRS_00_t                             (* M_TYPE u.PUA_EGPRS_00, PUA_EGPRS_00_t *)
  (DTrap (-8)                                                   (* CSN_ERROR "01 <PUA EGPRS>", CSN_ERROR_STREAM_NOT_SUPPORTED *)
  (DTrap (-8)                                                   (* CSN_ERROR "10 <PUA EGPRS>", CSN_ERROR_STREAM_NOT_SUPPORTED *)
  (DTrap (-8)                                                   (* CSN_ERROR "11 <PUA EGPRS>", CSN_ERROR_STREAM_NOT_SUPPORTED *)
  DEnd))))).
(** csn1_ts_44_060.c:1388-1402; the structure: csn1_defs.h:2306. *)
Definition Packet_Uplink_Assignment_t : descr :=
  (DUint 6 0 1 false                                            (* M_UINT MESSAGE_TYPE, 6 *)
  (DUint 2 1 1 false                                            (* M_UINT PAGE_MODE, 2 *)
  (DNext false 1%nat 2 1 false                                  (* M_NEXT_EXIST Exist_PERSISTENCE_LEVEL, 1 *)
  (DUintArr 4 4 3 4                                             (* M_UINT_ARRAY PERSISTENCE_LEVEL, 4, 4 *)
  (DType 8 8 false PacketUplinkID_t                             (* M_TYPE ID, PacketUplinkID_t *)
  (DUnion false 2%nat 16 1                                      (* M_UNION *)
  (DType 20 92 false PUA_GPRS_t                                 (* M_TYPE u.PUA_GPRS_Struct, PUA_GPRS_t *)
  (DType 20 164 false PUA_EGPRS_t                               (* M_TYPE u.PUA_EGPRS_Struct, PUA_EGPRS_t *)
  (DPad                                                         (* M_PADDING_BITS *)
  DEnd))))))))).
(** csn1_ts_44_060.c:3743-3747; the structure: csn1_defs.h:4908. *)
Definition PHO_TimingAdvance_t : descr :=
  (DType 0 8 false Global_Packet_Timing_Advance_t               (* M_TYPE GlobalPacket_Timing_Advance, Global_Packet_Timing_Advance_t *)
  (DNext false 1%nat 8 1 false                                  (* M_NEXT_EXIST Exist_Packet_Extended_Timing_Advance, 1 *)
  (DUint 2 9 1 false                                            (* M_UINT Packet_Extended_Timing_Advance, 2 *)
  DEnd))).
(** csn1_ts_44_060.c:3627-3631; the structure: csn1_defs.h:4806. *)
Definition GlobalTimeslotDescription_t : descr :=
  (DUnion false 2%nat 0 1                                       (* M_UNION *)
  (DUint 8 1 1 false                                            (* M_UINT u.MS_TimeslotAllocation, 8 *)
  (DType 1 17 false Power_Control_Parameters_t                  (* M_TYPE u.Power_Control_Parameters, Power_Control_Parameters_t *)
  DEnd))).
(** csn1_ts_44_060.c:3646-3649; the structure: csn1_defs.h:4823. *)
Definition PHO_USF_1_7_t : descr :=
  (DNext false 1%nat 0 4 false                                  (* M_NEXT_EXIST Exist_USF, 1 *)
  (DUint 3 4 1 false                                            (* M_UINT USF, 3 *)
  DEnd)).
(** csn1_ts_44_060.c:3652-3655; the structure: csn1_defs.h:4830. *)
Definition USF_AllocationArray_t : descr :=
  (DUint 3 0 1 false                                            (* M_UINT USF_0, 3 *)
  (DTArr (CVarOff 60) 4 56 8 PHO_USF_1_7_t                      (* M_VAR_TARRAY_OFFSET USF_1_7, PHO_USF_1_7_t, NBR_OfAllocatedTimeslots *)
  DEnd)).
(** csn1_ts_44_060.c:3658-3680; the structure: csn1_defs.h:4852. *)
Definition PHO_UplinkAssignment_t : descr :=
  (DUint 7 0 1 false                                            (* M_UINT PFI, 7 *)
  (DUint 1 1 1 false                                            (* M_UINT RLC_Mode, 1 *)
  (DUint 5 2 1 false                                            (* M_UINT TFI_Assignment, 5 *)
  (DNext false 1%nat 3 1 false                                  (* M_NEXT_EXIST Exist_ChannelCodingCommand, 1 *)
  (DUint 2 4 1 false                                            (* M_UINT ChannelCodingCommand, 2 *)
  (DNext false 1%nat 5 1 false                                  (* M_NEXT_EXIST Exist_EGPRS_ChannelCodingCommand, 1 *)
  (DUint 4 6 1 false                                            (* M_UINT EGPRS_ChannelCodingCommand, 4 *)
  (DNext false 1%nat 7 1 false                                  (* M_NEXT_EXIST Exist_EGPRS_WindowSize, 1 *)
  (DUint 5 8 1 false                                            (* M_UINT EGPRS_WindowSize, 5 *)
  (DUint 1 9 1 false                                            (* M_UINT USF_Granularity, 1 *)
  (DNext false 1%nat 10 1 false                                 (* M_NEXT_EXIST Exist_TBF_TimeslotAllocation, 1 *)
  (DVarBmp true false 0 76 11 1                                 (* M_LEFT_VAR_BMP TBF_TimeslotAllocation, u.USF_AllocationArray.NBR_OfAllocatedTimeslots, 0 *)
  (DUnion false 2%nat 12 1                                      (* M_UNION *)
  (DUint 3 16 1 false                                           (* M_UINT u.USF_SingleAllocation, 3 *)
  (DType 16 64 false USF_AllocationArray_t                      (* M_TYPE u.USF_AllocationArray, USF_AllocationArray_t *)
  DEnd))))))))))))))).
(** csn1_ts_44_060.c:3683-3689; the structure: csn1_defs.h:4859. *)
Definition GlobalTimeslotDescription_UA_t : descr :=
  (DType 0 18 false GlobalTimeslotDescription_t                 (* M_TYPE GlobalTimeslotDescription, GlobalTimeslotDescription_t *)
  (DNext false 2%nat 18 1 false                                 (* M_NEXT_EXIST Exist_PHO_UA, 2 *)
  (DType 20 80 false PHO_UplinkAssignment_t                     (* M_TYPE PHO_UA, PHO_UplinkAssignment_t *)
  (DFixed 1 0                                                   (* M_FIXED 1, 0x0 *)
  DEnd)))).
(** csn1_ts_44_060.c:3634-3643; the structure: csn1_defs.h:4817. *)
Definition PHO_DownlinkAssignment_t : descr :=
  (DUint 8 0 1 false                                            (* M_UINT TimeslotAllocation, 8 *)
  (DUint 7 1 1 false                                            (* M_UINT PFI, 7 *)
  (DUint 1 2 1 false                                            (* M_UINT RLC_Mode, 1 *)
  (DUint 5 3 1 false                                            (* M_UINT TFI_Assignment, 5 *)
  (DUint 1 4 1 false                                            (* M_UINT ControlACK, 1 *)
  (DNext false 1%nat 5 1 false                                  (* M_NEXT_EXIST Exist_EGPRS_WindowSize, 1 *)
  (DUint 5 6 1 false                                            (* M_UINT EGPRS_WindowSize, 5 *)
  DEnd))))))).
(** csn1_ts_44_060.c:3692-3702; the structure: csn1_defs.h:4869. *)
Definition PHO_GPRS_t : descr :=
  (DNext false 1%nat 0 1 false                                  (* M_NEXT_EXIST Exist_ChannelCodingCommand, 1 *)
  (DUint 2 1 1 false                                            (* M_UINT ChannelCodingCommand, 2 *)
  (DNext false 1%nat 2 1 false                                  (* M_NEXT_EXIST Exist_GlobalTimeslotDescription_UA, 1 *)
  (DType 4 100 false GlobalTimeslotDescription_UA_t             (* M_TYPE GTD_UA, GlobalTimeslotDescription_UA_t *)
  (DNext false 2%nat 104 1 false                                (* M_NEXT_EXIST Exist_DownlinkAssignment, 2 *)
  (DType 105 7 false PHO_DownlinkAssignment_t                   (* M_TYPE DownlinkAssignment, PHO_DownlinkAssignment_t *)
  (DFixed 1 0                                                   (* M_FIXED 1, 0x0 *)
  DEnd))))))).
(** csn1_ts_44_060.c:3705-3712; the structure: csn1_defs.h:4879. *)
Definition EGPRS_Description_t : descr :=
  (DNext false 1%nat 0 1 false                                  (* M_NEXT_EXIST Exist_EGPRS_WindowSize, 1 *)
  (DUint 5 1 1 false                                            (* M_UINT EGPRS_WindowSize, 5 *)
  (DUint 2 2 1 false                                            (* M_UINT LinkQualityMeasurementMode, 2 *)
  (DNext false 1%nat 3 1 false                                  (* M_NEXT_EXIST Exist_BEP_Period2, 1 *)
  (DUint 4 4 1 false                                            (* M_UINT BEP_Period2, 4 *)
  DEnd))))).
(** csn1_ts_44_060.c:3715-3722; the structure: csn1_defs.h:4887. *)
Definition DownlinkTBF_t : descr :=
  (DNext false 1%nat 0 1 false                                  (* M_NEXT_EXIST Exist_EGPRS_Description, 1 *)
  (DType 1 5 false EGPRS_Description_t                          (* M_TYPE EGPRS_Description, EGPRS_Description_t *)
  (DNext false 2%nat 6 1 false                                  (* M_NEXT_EXIST Exist_DownlinkAssignment, 2 *)
  (DType 7 7 false PHO_DownlinkAssignment_t                     (* M_TYPE DownlinkAssignment, PHO_DownlinkAssignment_t *)
  (DFixed 1 0                                                   (* M_FIXED 1, 0x0 *)
  DEnd))))).
(** csn1_ts_44_060.c:3725-3740; the structure: csn1_defs.h:4901. *)
Definition PHO_EGPRS_t : descr :=
  (DNext false 1%nat 0 1 false                                  (* M_NEXT_EXIST Exist_EGPRS_WindowSize, 1 *)
  (DUint 5 1 1 false                                            (* M_UINT EGPRS_WindowSize, 5 *)
  (DNext false 1%nat 2 1 false                                  (* M_NEXT_EXIST Exist_EGPRS_ChannelCodingCommand, 1 *)
  (DUint 4 3 1 false                                            (* M_UINT EGPRS_ChannelCodingCommand, 4 *)
  (DNext false 1%nat 4 1 false                                  (* M_NEXT_EXIST Exist_BEP_Period2, 1 *)
  (DUint 4 5 1 false                                            (* M_UINT BEP_Period2, 4 *)
  (DNext false 1%nat 6 1 false                                  (* M_NEXT_EXIST Exist_GlobalTimeslotDescription_UA, 1 *)
  (DType 8 100 false GlobalTimeslotDescription_UA_t             (* M_TYPE GTD_UA, GlobalTimeslotDescription_UA_t *)
  (DNext false 1%nat 108 1 false                                (* M_NEXT_EXIST Exist_DownlinkTBF, 1 *)
  (DType 109 14 false DownlinkTBF_t                             (* M_TYPE DownlinkTBF, DownlinkTBF_t *)
  DEnd)))))))))).
(** csn1_ts_44_060.c:3775-3810; the structure: csn1_defs.h:4965. *)
Definition PHO_RadioResources_t : descr :=
  (DNext false 1%nat 0 1 false                                  (* M_NEXT_EXIST Exist_HandoverReference, 1 *)
  (DUint 8 1 1 false                                            (* M_UINT HandoverReference, 8 *)
  (DUint 10 2 1 false                                           (* M_UINT ARFCN, 10 *)
  (DUint 2 3 1 false                                            (* M_UINT SI, 2 *)
  (DUint 1 4 1 false                                            (* M_UINT NCI, 1 *)
  (DUint 6 5 1 false                                            (* M_UINT BSIC, 6 *)
  (DNext false 1%nat 6 1 false                                  (* M_NEXT_EXIST Exist_CCN_Active, 1 *)
  (DUint 1 7 1 false                                            (* M_UINT CCN_Active, 1 *)
  (DNext false 1%nat 8 1 false                                  (* M_NEXT_EXIST Exist_CCN_Active_3G, 1 *)
  (DUint 1 9 1 false                                            (* M_UINT CCN_Active_3G, 1 *)
  (DNext false 1%nat 10 1 false                                 (* M_NEXT_EXIST Exist_CCN_Support_Description, 1 *)
  (DType 11 17 false CCN_Support_Description_t                  (* M_TYPE CCN_Support_Description, CCN_Support_Description_t *)
  (DType 28 28 false Frequency_Parameters_t                     (* M_TYPE Frequency_Parameters, Frequency_Parameters_t *)
  (DUint 2 56 1 false                                           (* M_UINT NetworkControlOrder, 2 *)
  (DNext false 1%nat 57 1 false                                 (* M_NEXT_EXIST Exist_PHO_TimingAdvance, 1 *)
  (DType 58 10 false PHO_TimingAdvance_t                        (* M_TYPE PHO_TimingAdvance, PHO_TimingAdvance_t *)
  (DUint 1 68 1 false                                           (* M_UINT Extended_Dynamic_Allocation, 1 *)
  (DUint 1 69 1 false                                           (* M_UINT RLC_Reset, 1 *)
  (DNext false 2%nat 70 1 false                                 (* M_NEXT_EXIST Exist_PO_PR, 2 *)
  (DUint 4 71 1 false                                           (* M_UINT PO, 4 *)
  (DUint 1 72 1 false                                           (* M_UINT PR_Mode, 1 *)
  (DNext false 1%nat 73 1 false                                 (* M_NEXT_EXIST Exist_UplinkControlTimeslot, 1 *)
  (DUint 3 74 1 false                                           (* M_UINT UplinkControlTimeslot, 3 *)
  (DUnion false 2%nat 75 1                                      (* M_UNION *)
  (DType 76 112 false PHO_GPRS_t                                (* M_TYPE u.PHO_GPRS_Mode, PHO_GPRS_t *)
  (DType 76 124 false PHO_EGPRS_t                               (* M_TYPE u.PHO_EGPRS_Mode, PHO_EGPRS_t *)
  DEnd)))))))))))))))))))))))))).
(** csn1_ts_44_060.c:3750-3759; the structure: csn1_defs.h:4920. *)
Definition NAS_Container_For_PS_HO_t : descr :=
  (DUint 7 0 1 false                                            (* M_UINT NAS_ContainerLength, 7 *)
  (DUint 1 1 1 false                                            (* M_UINT Spare_1a, 1 *)
  (DUint 1 2 1 false                                            (* M_UINT Spare_1b, 1 *)
  (DUint 1 3 1 false                                            (* M_UINT Spare_1c, 1 *)
  (DUint 1 4 1 false                                            (* M_UINT Old_XID, 1 *)
  (DUint 1 5 1 false                                            (* M_UINT Spare_1e, 1 *)
  (DUint 3 6 1 false                                            (* M_UINT Type_of_Ciphering_Algo, 3 *)
  (DUint 32 8 4 false                                           (* M_UINT IOV_UI_value, 32 *)
  DEnd)))))))).
(** csn1_ts_44_060.c:3813-3819; the structure: csn1_defs.h:4972. *)
Definition PS_HandoverTo_A_GB_ModePayload_t : descr :=
  (DFixed 2 0                                                   (* M_FIXED 2, 0x00 *)
  (DType 0 200 false PHO_RadioResources_t                       (* M_TYPE PHO_RadioResources, PHO_RadioResources_t *)
  (DNext false 1%nat 200 1 false                                (* M_NEXT_EXIST Exist_NAS_Container, 1 *)
  (DType 204 12 false NAS_Container_For_PS_HO_t                 (* M_TYPE NAS_Container, NAS_Container_For_PS_HO_t *)
  DEnd)))).
(** csn1_ts_44_060.c:3762-3765; the structure: csn1_defs.h:4926. *)
Definition PS_HandoverTo_UTRAN_Payload_t : descr :=
  (DUint 8 0 1 false                                            (* M_UINT RRC_ContainerLength, 8 *)
  (DVarArr 0 0 1 255                                            (* M_VAR_ARRAY RRC_Container, RRC_ContainerLength, 0 *)
  DEnd)).
(** csn1_ts_44_060.c:3769-3772; the structure: csn1_defs.h:4932. *)
Definition PS_HandoverTo_E_UTRAN_Payload_t : descr :=
  (DUint 8 0 1 false                                            (* M_UINT RRC_ContainerLength, 8 *)
  (DVarArr 0 0 1 255                                            (* M_VAR_ARRAY RRC_Container, RRC_ContainerLength, 0 *)
  DEnd)).
(** csn1_ts_44_060.c:3822-3838; the structure: csn1_defs.h:4987. *)
Definition Packet_Handover_Command_t : descr :=
  (DUint 6 0 1 false                                            (* M_UINT MessageType, 6 *)
  (DUint 2 1 1 false                                            (* M_UINT PageMode, 2 *)
  (DFixed 1 0                                                   (* M_FIXED 1, 0x00 *)
  (DType 2 2 false Global_TFI_t                                 (* M_TYPE Global_TFI, Global_TFI_t *)
  (DUint 2 4 1 false                                            (* M_UINT ContainerID, 2 *)
  (DUnion false 4%nat 5 1                                       (* M_UNION *)
  (DType 8 216 false PS_HandoverTo_A_GB_ModePayload_t           (* M_TYPE u.PS_HandoverTo_A_GB_ModePayload, PS_HandoverTo_A_GB_ModePayload_t *)
  (DType 8 256 false PS_HandoverTo_UTRAN_Payload_t              (* M_TYPE u.PS_HandoverTo_UTRAN_Payload, PS_HandoverTo_UTRAN_Payload_t *)
  (DType 8 256 false PS_HandoverTo_E_UTRAN_Payload_t            (* M_TYPE u.PS_HandoverTo_E_UTRAN_Payload, PS_HandoverTo_E_UTRAN_Payload_t *)
  (DTrap (-8)                                                   (* CSN_ERROR "11 <extension> not implemented", CSN_ERROR_STREAM_NOT_SUPPORTED *)
  (DPad                                                         (* M_PADDING_BITS *)
  DEnd))))))))))).
(** csn1_ts_44_060.c:3845-3853; the structure: csn1_defs.h:4999. *)
Definition Packet_PhysicalInformation_t : descr :=
  (DUint 6 0 1 false                                            (* M_UINT MessageType, 6 *)
  (DUint 2 1 1 false                                            (* M_UINT PageMode, 2 *)
  (DType 2 2 false Global_TFI_t                                 (* M_TYPE Global_TFI, Global_TFI_t *)
  (DUint 8 4 1 false                                            (* M_UINT TimingAdvance, 8 *)
  (DPad                                                         (* M_PADDING_BITS *)
  DEnd))))).
(** csn1_ts_44_060.c:364-371; the structure: csn1_defs.h:1127. *)
Definition Packet_Downlink_Dummy_Control_Block_t : descr :=
  (DUint 6 0 1 false                                            (* M_UINT MESSAGE_TYPE, 6 *)
  (DUint 2 1 1 false                                            (* M_UINT PAGE_MODE, 2 *)
  (DNext false 1%nat 2 1 false                                  (* M_NEXT_EXIST Exist_PERSISTENCE_LEVEL, 1 *)
  (DUintArr 4 4 3 4                                             (* M_UINT_ARRAY PERSISTENCE_LEVEL, 4, 4 *)
  (DPad                                                         (* M_PADDING_BITS *)
  DEnd))))).
(** csn1_ts_44_060.c:261-277; the structure: csn1_defs.h:1019. *)
Definition GPRS_Cell_Options_t : descr :=
  (DUint 2 0 1 false                                            (* M_UINT NMO, 2 *)
  (DUint 3 1 1 false                                            (* M_UINT T3168, 3 *)
  (DUint 3 2 1 false                                            (* M_UINT T3192, 3 *)
  (DUint 3 3 1 false                                            (* M_UINT DRX_TIMER_MAX, 3 *)
  (DUint 1 4 1 false                                            (* M_UINT ACCESS_BURST_TYPE, 1 *)
  (DUint 1 5 1 false                                            (* M_UINT CONTROL_ACK_TYPE, 1 *)
  (DUint 4 6 1 false                                            (* M_UINT BS_CV_MAX, 4 *)
  (DNext false 3%nat 7 1 false                                  (* M_NEXT_EXIST Exist_PAN, 3 *)
  (DUint 3 8 1 false                                            (* M_UINT PAN_DEC, 3 *)
  (DUint 3 9 1 false                                            (* M_UINT PAN_INC, 3 *)
  (DUint 3 10 1 false                                           (* M_UINT PAN_MAX, 3 *)
  (DNext false 1%nat 11 1 false                                 (* M_NEXT_EXIST Exist_Extension_Bits, 1 *)
  (DType 12 9 false Extension_Bits_t                            (* M_TYPE Extension_Bits, Extension_Bits_t *)
  DEnd))))))))))))).
(** csn1_ts_44_060.c:3920-3925; the structure: csn1_defs.h:2708. *)
Definition PCCCH_Organization_t : descr :=
  (DUint 1 0 1 false                                            (* M_UINT BS_PCC_REL, 1 *)
  (DUint 2 1 1 false                                            (* M_UINT BS_PBCCH_BLKS, 2 *)
  (DUint 4 2 1 false                                            (* M_UINT BS_PAG_BLKS_RES, 4 *)
  (DUint 4 3 1 false                                            (* M_UINT BS_PRACH_BLKS, 4 *)
  DEnd)))).
(** csn1_ts_44_060.c:3906-3908; the structure: csn1_defs.h:2713. *)
Definition PSI1_AdditionsR6_t : descr :=
  (DUint 5 0 1 false                                            (* M_UINT LB_MS_TXPWR_MAX_CCH, 5 *)
  DEnd).
(** csn1_ts_44_060.c:3911-3917; the structure: csn1_defs.h:2722. *)
Definition PSI1_AdditionsR99_t : descr :=
  (DUint 1 0 1 false                                            (* M_UINT MSCR, 1 *)
  (DUint 1 1 1 false                                            (* M_UINT SGSNR, 1 *)
  (DUint 1 2 1 false                                            (* M_UINT BandIndicator, 1 *)
  (DNext false 1%nat 4 4 true                                   (* M_NEXT_EXIST_OR_NULL Exist_AdditionsR6, 1 *)
  (DType 8 1 false PSI1_AdditionsR6_t                           (* M_TYPE AdditionsR6, PSI1_AdditionsR6_t *)
  DEnd))))).
(** csn1_ts_44_060.c:3929-3952; the structure: csn1_defs.h:2746. *)
Definition PSI1_t : descr :=
  (DUint 6 0 1 false                                            (* M_UINT MESSAGE_TYPE, 6 *)
  (DUint 2 1 1 false                                            (* M_UINT PAGE_MODE, 2 *)
  (DUint 3 2 1 false                                            (* M_UINT PBCCH_CHANGE_MARK, 3 *)
  (DUint 4 3 1 false                                            (* M_UINT PSI_CHANGE_FIELD, 4 *)
  (DUint 4 4 1 false                                            (* M_UINT PSI1_REPEAT_PERIOD, 4 *)
  (DUint 6 5 1 false                                            (* M_UINT PSI_COUNT_LR, 6 *)
  (DNext false 1%nat 6 1 false                                  (* M_NEXT_EXIST Exist_PSI_COUNT_HR, 1 *)
  (DUint 4 7 1 false                                            (* M_UINT PSI_COUNT_HR, 4 *)
  (DUint 1 8 1 false                                            (* M_UINT MEASUREMENT_ORDER, 1 *)
  (DType 9 21 false GPRS_Cell_Options_t                         (* M_TYPE GPRS_Cell_Options, GPRS_Cell_Options_t *)
  (DType 30 13 false PRACH_Control_t                            (* M_TYPE PRACH_Control, PRACH_Control_t *)
  (DType 43 4 false PCCCH_Organization_t                        (* M_TYPE PCCCH_Organization, PCCCH_Organization_t *)
  (DType 47 7 false Global_Power_Control_Parameters_t           (* M_TYPE Global_Power_Control_Parameters, Global_Power_Control_Parameters_t *)
  (DUint 1 54 1 false                                           (* M_UINT PSI_STATUS_IND, 1 *)
  (DNext false 1%nat 56 4 true                                  (* M_NEXT_EXIST_OR_NULL Exist_AdditionsR99, 1 *)
  (DType 60 12 false PSI1_AdditionsR99_t                        (* M_TYPE AdditionsR99, PSI1_AdditionsR99_t *)
  (DPad                                                         (* M_PADDING_BITS *)
  DEnd))))))))))))))))).
(** csn1_ts_44_060.c:47-54; the structure: csn1_defs.h:197. *)
Definition PLMN_t : descr :=
  (DUint 4 1 1 false                                            (* M_UINT MCC2, 4 *)
  (DUint 4 0 1 false                                            (* M_UINT MCC1, 4 *)
  (DUint 4 3 1 false                                            (* M_UINT MNC3, 4 *)
  (DUint 4 2 1 false                                            (* M_UINT MCC3, 4 *)
  (DUint 4 5 1 false                                            (* M_UINT MNC2, 4 *)
  (DUint 4 4 1 false                                            (* M_UINT MNC1, 4 *)
  DEnd)))))).
(** csn1_ts_44_060.c:3959-3962; the structure: csn1_defs.h:205. *)
Definition LAI_t : descr :=
  (DType 0 6 false PLMN_t                                       (* M_TYPE PLMN, PLMN_t *)
  (DUint 16 6 2 false                                           (* M_UINT LAC, 16 *)
  DEnd)).
(** csn1_ts_44_060.c:3965-3969; the structure: csn1_defs.h:2812. *)
Definition Cell_Identification_t : descr :=
  (DType 0 8 false LAI_t                                        (* M_TYPE LAI, LAI_t *)
  (DUint 8 8 1 false                                            (* M_UINT RAC, 8 *)
  (DUint 16 10 2 false                                          (* M_UINT Cell_Identity, 16 *)
  DEnd))).
(** csn1_ts_44_060.c:3972-3992; the structure: csn1_defs.h:2835. *)
Definition Non_GPRS_Cell_Options_t : descr :=
  (DUint 1 0 1 false                                            (* M_UINT ATT, 1 *)
  (DNext false 1%nat 1 1 false                                  (* M_NEXT_EXIST Exist_T3212, 1 *)
  (DUint 8 2 1 false                                            (* M_UINT T3212, 8 *)
  (DUint 1 3 1 false                                            (* M_UINT NECI, 1 *)
  (DUint 1 4 1 false                                            (* M_UINT PWRC, 1 *)
  (DUint 2 5 1 false                                            (* M_UINT DTX, 2 *)
  (DUint 4 6 1 false                                            (* M_UINT RADIO_LINK_TIMEOUT, 4 *)
  (DUint 3 7 1 false                                            (* M_UINT BS_AG_BLKS_RES, 3 *)
  (DUint 3 8 1 false                                            (* M_UINT CCCH_CONF, 3 *)
  (DUint 3 9 1 false                                            (* M_UINT BS_PA_MFRMS, 3 *)
  (DUint 2 10 1 false                                           (* M_UINT MAX_RETRANS, 2 *)
  (DUint 4 11 1 false                                           (* M_UINT TX_INTEGER, 4 *)
  (DUint 1 12 1 false                                           (* M_UINT EC, 1 *)
  (DUint 5 13 1 false                                           (* M_UINT MS_TXPWR_MAX_CCCH, 5 *)
  (DNext false 1%nat 14 1 false                                 (* M_NEXT_EXIST Exist_Extension_Bits, 1 *)
  (DType 15 9 false Extension_Bits_t                            (* M_TYPE Extension_Bits, Extension_Bits_t *)
  DEnd)))))))))))))))).
(** csn1_ts_44_060.c:3995-3999; the structure: csn1_defs.h:2755. *)
Definition Reference_Frequency_t : descr :=
  (DUint 4 0 1 false                                            (* M_UINT NUMBER, 4 *)
  (DUintOff 4 1 1 3                                             (* M_UINT_OFFSET Length, 4, 3 *)
  (DVarArr 0 1 2 18                                             (* M_VAR_ARRAY Contents[0], Length, 0 *)
  DEnd))).
(** csn1_ts_44_060.c:1860-1862; the structure: csn1_defs.h:2761. *)
Definition Cell_Allocation_t : descr :=
  (DRecArr 4 0 1 4                                              (* M_REC_ARRAY RFL_Number, NoOfRFLs, 4 *)
  DEnd).
(** csn1_ts_44_060.c:4002-4005; the structure: csn1_defs.h:2767. *)
Definition PSI2_MA_t : descr :=
  (DUint 4 0 1 false                                            (* M_UINT NUMBER, 4 *)
  (DType 1 24 false GPRS_Mobile_Allocation_t                    (* M_TYPE Mobile_Allocation, GPRS_Mobile_Allocation_t *)
  DEnd)).
(** csn1_ts_44_060.c:4008-4011; the structure: csn1_defs.h:2773. *)
Definition Non_Hopping_PCCCH_Carriers_t : descr :=
  (DUint 10 0 2 false                                           (* M_UINT ARFCN, 10 *)
  (DUint 8 2 1 false                                            (* M_UINT TIMESLOT_ALLOCATION, 8 *)
  DEnd)).
(** csn1_ts_44_060.c:4014-4016; the structure: csn1_defs.h:2779. *)
Definition NonHoppingPCCCH_t : descr :=
  (DRecTArr false 0 2 28 4 7 Non_Hopping_PCCCH_Carriers_t       (* M_REC_TARRAY Carriers, Non_Hopping_PCCCH_Carriers_t, Count_Carriers *)
  DEnd).
(** csn1_ts_44_060.c:4019-4022; the structure: csn1_defs.h:2785. *)
Definition Hopping_PCCCH_Carriers_t : descr :=
  (DUint 6 0 1 false                                            (* M_UINT MAIO, 6 *)
  (DUint 8 1 1 false                                            (* M_UINT TIMESLOT_ALLOCATION, 8 *)
  DEnd)).
(** csn1_ts_44_060.c:4025-4028; the structure: csn1_defs.h:2793. *)
Definition HoppingPCCCH_t : descr :=
  (DUint 4 0 1 false                                            (* M_UINT MA_NUMBER, 4 *)
  (DRecTArr false 1 2 20 2 10 Hopping_PCCCH_Carriers_t          (* M_REC_TARRAY Carriers, Hopping_PCCCH_Carriers_t, Count_Carriers *)
  DEnd)).
(** csn1_ts_44_060.c:4031-4036; the structure: csn1_defs.h:2805. *)
Definition PCCCH_Description_t : descr :=
  (DUint 3 0 1 false                                            (* M_UINT TSC, 3 *)
  (DUnion false 2%nat 1 1                                       (* M_UNION *)
  (DType 2 30 false NonHoppingPCCCH_t                           (* M_TYPE u.NonHopping, NonHoppingPCCCH_t *)
  (DType 2 22 false HoppingPCCCH_t                              (* M_TYPE u.Hopping, HoppingPCCCH_t *)
  DEnd)))).
(** csn1_ts_44_060.c:4039-4058; the structure: csn1_defs.h:2861. *)
Definition PSI2_t : descr :=
  (DUint 6 0 1 false                                            (* M_UINT MESSAGE_TYPE, 6 *)
  (DUint 2 1 1 false                                            (* M_UINT PAGE_MODE, 2 *)
  (DUint 2 2 1 false                                            (* M_UINT CHANGE_MARK, 2 *)
  (DUint 3 3 1 false                                            (* M_UINT INDEX, 3 *)
  (DUint 3 4 1 false                                            (* M_UINT COUNT, 3 *)
  (DNext false 1%nat 5 1 false                                  (* M_NEXT_EXIST Exist_Cell_Identification, 1 *)
  (DType 6 12 false Cell_Identification_t                       (* M_TYPE Cell_Identification, Cell_Identification_t *)
  (DNext false 1%nat 18 1 false                                 (* M_NEXT_EXIST Exist_Non_GPRS_Cell_Options, 1 *)
  (DType 19 24 false Non_GPRS_Cell_Options_t                    (* M_TYPE Non_GPRS_Cell_Options, Non_GPRS_Cell_Options_t *)
  (DRecTArr false 43 44 80 20 4 Reference_Frequency_t           (* M_REC_TARRAY Reference_Frequency, Reference_Frequency_t, Count_Reference_Frequency *)
  (DType 124 5 false Cell_Allocation_t                          (* M_TYPE Cell_Allocation, Cell_Allocation_t *)
  (DRecTArr false 129 130 200 25 8 PSI2_MA_t                    (* M_REC_TARRAY GPRS_MA, PSI2_MA_t, Count_GPRS_MA *)
  (DRecTArr false 330 332 224 32 7 PCCCH_Description_t          (* M_REC_TARRAY PCCCH_Description, PCCCH_Description_t, Count_PCCCH_Description *)
  (DPad                                                         (* M_PADDING_BITS *)
  DEnd)))))))))))))).
(** csn1_ts_44_060.c:4065-4073; the structure: csn1_defs.h:2880. *)
Definition Serving_Cell_params_t : descr :=
  (DUint 1 0 1 false                                            (* M_UINT CELL_BAR_ACCESS_2, 1 *)
  (DUint 1 1 1 false                                            (* M_UINT EXC_ACC, 1 *)
  (DUint 6 2 1 false                                            (* M_UINT GPRS_RXLEV_ACCESS_MIN, 6 *)
  (DUint 5 3 1 false                                            (* M_UINT GPRS_MS_TXPWR_MAX_CCH, 5 *)
  (DNext false 1%nat 4 1 false                                  (* M_NEXT_EXIST Exist_HCS, 1 *)
  (DType 5 2 false HCS_t                                        (* M_TYPE HCS, HCS_t *)
  (DUint 2 7 1 false                                            (* M_UINT MULTIBAND_REPORTING, 2 *)
  DEnd))))))).
(** csn1_ts_44_060.c:4077-4088; the structure: csn1_defs.h:2894. *)
Definition Gen_Cell_Sel_t : descr :=
  (DUint 3 0 1 false                                            (* M_UINT GPRS_CELL_RESELECT_HYSTERESIS, 3 *)
  (DUint 1 1 1 false                                            (* M_UINT C31_HYST, 1 *)
  (DUint 1 2 1 false                                            (* M_UINT C32_QUAL, 1 *)
  (DFixed 1 1                                                   (* M_FIXED 1, 0x01 *)
  (DNext false 1%nat 4 1 false                                  (* M_NEXT_EXIST Exist_T_RESEL, 1 *)
  (DUint 3 5 1 false                                            (* M_UINT T_RESEL, 3 *)
  (DNext false 1%nat 6 1 false                                  (* M_NEXT_EXIST Exist_RA_RESELECT_HYSTERESIS, 1 *)
  (DUint 3 7 1 false                                            (* M_UINT RA_RESELECT_HYSTERESIS, 3 *)
  DEnd)))))))).
(** csn1_ts_44_060.c:1884-1901; the structure: csn1_defs.h:2935. *)
Definition Cell_Selection_t : descr :=
  (DUint 6 0 1 false                                            (* M_UINT BSIC, 6 *)
  (DUint 1 1 1 false                                            (* M_UINT CELL_BAR_ACCESS_2, 1 *)
  (DUint 1 2 1 false                                            (* M_UINT EXC_ACC, 1 *)
  (DUint 1 3 1 false                                            (* M_UINT SAME_RA_AS_SERVING_CELL, 1 *)
  (DNext false 2%nat 4 1 false                                  (* M_NEXT_EXIST Exist_RXLEV_and_TXPWR, 2 *)
  (DUint 6 5 1 false                                            (* M_UINT GPRS_RXLEV_ACCESS_MIN, 6 *)
  (DUint 5 6 1 false                                            (* M_UINT GPRS_MS_TXPWR_MAX_CCH, 5 *)
  (DNext false 2%nat 7 1 false                                  (* M_NEXT_EXIST Exist_OFFSET_and_TIME, 2 *)
  (DUint 3 8 1 false                                            (* M_UINT GPRS_TEMPORARY_OFFSET, 3 *)
  (DUint 5 9 1 false                                            (* M_UINT GPRS_PENALTY_TIME, 5 *)
  (DNext false 1%nat 10 1 false                                 (* M_NEXT_EXIST Exist_GPRS_RESELECT_OFFSET, 1 *)
  (DUint 5 11 1 false                                           (* M_UINT GPRS_RESELECT_OFFSET, 5 *)
  (DNext false 1%nat 12 1 false                                 (* M_NEXT_EXIST Exist_HCS, 1 *)
  (DType 13 2 false HCS_t                                       (* M_TYPE HCS, HCS_t *)
  (DNext false 1%nat 15 1 false                                 (* M_NEXT_EXIST Exist_SI13_PBCCH_Location, 1 *)
  (DType 16 3 false SI13_PBCCH_Location_t                       (* M_TYPE SI13_PBCCH_Location, SI13_PBCCH_Location_t *)
  DEnd)))))))))))))))).
(** csn1_ts_44_060.c:1904-1907; the structure: csn1_defs.h:2944. *)
Definition Cell_Selection_Params_With_FreqDiff_t : descr :=
  (DVarBmp false false 0 0 1 1                                  (* M_VAR_BITMAP FREQUENCY_DIFF, FREQ_DIFF_LENGTH, 0 *)
  (DType 2 19 false Cell_Selection_t                            (* M_TYPE Cell_SelectionParams, Cell_Selection_t *)
  DEnd)).
(** csn1_ts_44_060.c:1925-1932; the structure: csn1_defs.h:2954. *)
Definition NeighbourCellParameters_t : descr :=
  (DUint 10 0 2 false                                           (* M_UINT START_FREQUENCY, 10 *)
  (DType 2 19 false Cell_Selection_t                            (* M_TYPE Cell_Selection, Cell_Selection_t *)
  (DUint 4 21 1 false                                           (* M_UINT NR_OF_REMAINING_CELLS, 4 *)
  (DUintOff 3 22 1 1                                            (* M_UINT_OFFSET FREQ_DIFF_LENGTH, 3, 1 *)
  (DCallback (CbFreqDiff 16 21 0) 22 23 336                     (* M_CALLBACK callback_init_Cell_Selection_Params_FREQUENCY_DIFF, FREQ_DIFF_LENGTH, Cell_Selection_Params_With_FreqDiff *)
  (DTArr (CVar 21) 23 336 21 Cell_Selection_Params_With_FreqDiff_t (* M_VAR_TARRAY Cell_Selection_Params_With_FreqDiff, Cell_Selection_Params_With_FreqDiff_t, NR_OF_REMAINING_CELLS *)
  DEnd)))))).
(** csn1_ts_44_060.c:1935-1937; the structure: csn1_defs.h:2960. *)
Definition NeighbourCellList_t : descr :=
  (DRecTArr false 0 2 11520 360 32 NeighbourCellParameters_t    (* M_REC_TARRAY Parameters, NeighbourCellParameters_t, Count *)
  DEnd).
(** csn1_ts_44_060.c:4092-4111; the structure: csn1_defs.h:2984. *)
Definition COMPACT_Cell_Sel_t : descr :=
  (DUint 6 0 1 false                                            (* M_UINT bsic, 6 *)
  (DUint 1 1 1 false                                            (* M_UINT CELL_BAR_ACCESS_2, 1 *)
  (DUint 1 2 1 false                                            (* M_UINT EXC_ACC, 1 *)
  (DUint 1 3 1 false                                            (* M_UINT SAME_RA_AS_SERVING_CELL, 1 *)
  (DNext false 2%nat 4 1 false                                  (* M_NEXT_EXIST Exist_GPRS_RXLEV_ACCESS_MIN, 2 *)
  (DUint 6 5 1 false                                            (* M_UINT GPRS_RXLEV_ACCESS_MIN, 6 *)
  (DUint 5 6 1 false                                            (* M_UINT GPRS_MS_TXPWR_MAX_CCH, 5 *)
  (DNext false 2%nat 7 1 false                                  (* M_NEXT_EXIST Exist_GPRS_TEMPORARY_OFFSET, 2 *)
  (DUint 3 8 1 false                                            (* M_UINT GPRS_TEMPORARY_OFFSET, 3 *)
  (DUint 5 9 1 false                                            (* M_UINT GPRS_PENALTY_TIME, 5 *)
  (DNext false 1%nat 10 1 false                                 (* M_NEXT_EXIST Exist_GPRS_RESELECT_OFFSET, 1 *)
  (DUint 5 11 1 false                                           (* M_UINT GPRS_RESELECT_OFFSET, 5 *)
  (DNext false 1%nat 12 1 false                                 (* M_NEXT_EXIST Exist_Hcs_Parm, 1 *)
  (DType 13 2 false HCS_t                                       (* M_TYPE HCS_Param, HCS_t *)
  (DNext false 1%nat 15 1 false                                 (* M_NEXT_EXIST Exist_TIME_GROUP, 1 *)
  (DUint 2 16 1 false                                           (* M_UINT TIME_GROUP, 2 *)
  (DNext false 1%nat 17 1 false                                 (* M_NEXT_EXIST Exist_GUAR_CONSTANT_PWR_BLKS, 1 *)
  (DUint 2 18 1 false                                           (* M_UINT GUAR_CONSTANT_PWR_BLKS, 2 *)
  DEnd)))))))))))))))))).
(** csn1_ts_44_060.c:4114-4117; the structure: csn1_defs.h:2991. *)
Definition COMPACT_Neighbour_Cell_Param_Remaining_t : descr :=
  (DVarBmp false false 0 0 2 2                                  (* M_VAR_BITMAP FREQUENCY_DIFF, FREQ_DIFF_LENGTH, 0 *)
  (DType 4 19 false COMPACT_Cell_Sel_t                          (* M_TYPE COMPACT_Cell_Sel_Remain_Cells, COMPACT_Cell_Sel_t *)
  DEnd)).
(** csn1_ts_44_060.c:4135-4142; the structure: csn1_defs.h:3000. *)
Definition COMPACT_Neighbour_Cell_Param_t : descr :=
  (DUint 10 0 2 false                                           (* M_UINT START_FREQUENCY, 10 *)
  (DType 2 19 false COMPACT_Cell_Sel_t                          (* M_TYPE COMPACT_Cell_Sel, COMPACT_Cell_Sel_t *)
  (DUint 4 21 1 false                                           (* M_UINT NR_OF_REMAINING_CELLS, 4 *)
  (DUintOff 3 22 1 1                                            (* M_UINT_OFFSET FREQ_DIFF_LENGTH, 3, 1 *)
  (DCallback (CbFreqDiff 16 24 0) 22 24 384                     (* M_CALLBACK callback_init_COMP_Ncell_Param_FREQUENCY_DIFF, FREQ_DIFF_LENGTH, COMPACT_Neighbour_Cell_Param_Remaining *)
  (DTArr (CVar 21) 24 384 24 COMPACT_Neighbour_Cell_Param_Remaining_t (* M_VAR_TARRAY COMPACT_Neighbour_Cell_Param_Remaining, COMPACT_Neighbour_Cell_Param_Remaining_t, NR_OF_REMAINING_CELLS *)
  DEnd)))))).
(** csn1_ts_44_060.c:4146-4149; the structure: csn1_defs.h:3007. *)
Definition COMPACT_Info_t : descr :=
  (DType 0 12 false Cell_Identification_t                       (* M_TYPE Cell_Identification, Cell_Identification_t *)
  (DRecTArr false 12 14 3264 408 8 COMPACT_Neighbour_Cell_Param_t (* M_REC_TARRAY COMPACT_Neighbour_Cell_Param, COMPACT_Neighbour_Cell_Param_t, COMPACT_Neighbour_Cell_Param_Count *)
  DEnd)).
(** csn1_ts_44_060.c:4153-4156; the structure: csn1_defs.h:3013. *)
Definition PSI3_AdditionR4_t : descr :=
  (DNext false 1%nat 0 1 false                                  (* M_NEXT_EXIST Exist_CCN_Support_Desc, 1 *)
  (DType 1 17 false CCN_Support_Description_t                   (* M_TYPE CCN_Support_Desc, CCN_Support_Description_t *)
  DEnd)).
(** csn1_ts_44_060.c:4160-4167; the structure: csn1_defs.h:3021. *)
Definition PSI3_AdditionR99_t : descr :=
  (DFixed 2 0                                                   (* M_FIXED 2, 0x00 *)
  (DNext false 1%nat 0 1 false                                  (* M_NEXT_EXIST Exist_COMPACT_Info, 1 *)
  (DType 2 3278 false COMPACT_Info_t                            (* M_TYPE COMPACT_Info, COMPACT_Info_t *)
  (DFixed 1 0                                                   (* M_FIXED 1, 0x00 *)
  (DNext false 1%nat 3280 1 false                               (* M_NEXT_EXIST Exist_AdditionR4, 1 *)
  (DType 3281 18 false PSI3_AdditionR4_t                        (* M_TYPE AdditionR4, PSI3_AdditionR4_t *)
  DEnd)))))).
(** csn1_ts_44_060.c:4171-4179; the structure: csn1_defs.h:3030. *)
Definition PSI3_AdditionR98_t : descr :=
  (DType 0 33 false LSA_ID_Info_t                               (* M_TYPE Scell_LSA_ID_Info, LSA_ID_Info_t *)
  (DNext false 1%nat 33 1 false                                 (* M_NEXT_EXIST Exist_LSA_Parameters, 1 *)
  (DType 34 1057 false LSA_Parameters_t                         (* M_TYPE LSA_Parameters, LSA_Parameters_t *)
  (DNext false 1%nat 1091 1 false                               (* M_NEXT_EXIST Exist_AdditionR99, 1 *)
  (DType 1092 3300 false PSI3_AdditionR99_t                     (* M_TYPE AdditionR99, PSI3_AdditionR99_t *)
  DEnd))))).
(** csn1_ts_44_060.c:4183-4196; the structure: csn1_defs.h:3046. *)
Definition PSI3_t : descr :=
  (DUint 6 0 1 false                                            (* M_UINT MESSAGE_TYPE, 6 *)
  (DUint 2 1 1 false                                            (* M_UINT PAGE_MODE, 2 *)
  (DUint 2 2 1 false                                            (* M_UINT CHANGE_MARK, 2 *)
  (DUint 4 3 1 false                                            (* M_UINT BIS_COUNT, 4 *)
  (DType 4 8 false Serving_Cell_params_t                        (* M_TYPE Serving_Cell_params, Serving_Cell_params_t *)
  (DType 12 8 false Gen_Cell_Sel_t                              (* M_TYPE General_Cell_Selection, Gen_Cell_Sel_t *)
  (DType 20 11522 false NeighbourCellList_t                     (* M_TYPE NeighbourCellList, NeighbourCellList_t *)
  (DNext false 1%nat 11542 1 false                              (* M_NEXT_EXIST Exist_AdditionR98, 1 *)
  (DType 11544 4392 false PSI3_AdditionR98_t                    (* M_TYPE AdditionR98, PSI3_AdditionR98_t *)
  (DPad                                                         (* M_PADDING_BITS *)
  DEnd)))))))))).
(** csn1_ts_44_060.c:2073-2080; the structure: csn1_defs.h:329. *)
Definition NC_Measurement_Parameters_t : descr :=
  (DUint 2 0 1 false                                            (* M_UINT NETWORK_CONTROL_ORDER, 2 *)
  (DNext false 3%nat 1 1 false                                  (* M_NEXT_EXIST Exist_NC, 3 *)
  (DUint 3 2 1 false                                            (* M_UINT NC_NON_DRX_PERIOD, 3 *)
  (DUint 3 3 1 false                                            (* M_UINT NC_REPORTING_PERIOD_I, 3 *)
  (DUint 3 4 1 false                                            (* M_UINT NC_REPORTING_PERIOD_T, 3 *)
  DEnd))))).
(** csn1_ts_44_060.c:4202-4226; the structure: csn1_defs.h:312. *)
Definition MeasurementParams_t : descr :=
  (DNext false 1%nat 0 1 false                                  (* M_NEXT_EXIST Exist_MULTI_BAND_REPORTING, 1 *)
  (DUint 2 1 1 false                                            (* M_UINT MULTI_BAND_REPORTING, 2 *)
  (DNext false 1%nat 2 1 false                                  (* M_NEXT_EXIST Exist_SERVING_BAND_REPORTING, 1 *)
  (DUint 2 3 1 false                                            (* M_UINT SERVING_BAND_REPORTING, 2 *)
  (DNext false 1%nat 4 1 false                                  (* M_NEXT_EXIST Exist_SCALE_ORD, 1 *)
  (DUint 2 5 1 false                                            (* M_UINT SCALE_ORD, 2 *)
  (DNext false 1%nat 6 1 false                                  (* M_NEXT_EXIST Exist_OffsetThreshold900, 1 *)
  (DType 7 2 false OffsetThreshold_t                            (* M_TYPE OffsetThreshold900, OffsetThreshold_t *)
  (DNext false 1%nat 9 1 false                                  (* M_NEXT_EXIST Exist_OffsetThreshold1800, 1 *)
  (DType 10 2 false OffsetThreshold_t                           (* M_TYPE OffsetThreshold1800, OffsetThreshold_t *)
  (DNext false 1%nat 12 1 false                                 (* M_NEXT_EXIST Exist_OffsetThreshold400, 1 *)
  (DType 13 2 false OffsetThreshold_t                           (* M_TYPE OffsetThreshold400, OffsetThreshold_t *)
  (DNext false 1%nat 15 1 false                                 (* M_NEXT_EXIST Exist_OffsetThreshold1900, 1 *)
  (DType 16 2 false OffsetThreshold_t                           (* M_TYPE OffsetThreshold1900, OffsetThreshold_t *)
  (DNext false 1%nat 18 1 false                                 (* M_NEXT_EXIST Exist_OffsetThreshold850, 1 *)
  (DType 19 2 false OffsetThreshold_t                           (* M_TYPE OffsetThreshold850, OffsetThreshold_t *)
  DEnd)))))))))))))))).
(** csn1_ts_44_060.c:4229-4244; the structure: csn1_defs.h:3120. *)
Definition GPRSMeasurementParams3G_PSI5_t : descr :=
  (DNext false 2%nat 0 1 false                                  (* M_NEXT_EXIST existRepParamsFDD, 2 *)
  (DUint 1 1 1 false                                            (* M_UINT RepQuantFDD, 1 *)
  (DUint 2 2 1 false                                            (* M_UINT MultiratReportingFDD, 2 *)
  (DNext false 2%nat 3 1 false                                  (* M_NEXT_EXIST existReportingParamsFDD, 2 *)
  (DUint 3 4 1 false                                            (* M_UINT ReportingOffsetFDD, 3 *)
  (DUint 3 5 1 false                                            (* M_UINT ReportingThresholdFDD, 3 *)
  (DNext false 1%nat 6 1 false                                  (* M_NEXT_EXIST existMultiratReportingTDD, 1 *)
  (DUint 2 7 1 false                                            (* M_UINT MultiratReportingTDD, 2 *)
  (DNext false 2%nat 8 1 false                                  (* M_NEXT_EXIST existOffsetThresholdTDD, 2 *)
  (DUint 3 9 1 false                                            (* M_UINT ReportingOffsetTDD, 3 *)
  (DUint 3 10 1 false                                           (* M_UINT ReportingThresholdTDD, 3 *)
  DEnd))))))))))).
(** csn1_ts_44_060.c:4247-4260; the structure: csn1_defs.h:3134. *)
Definition ENH_Reporting_Parameters_t : descr :=
  (DUint 1 0 1 false                                            (* M_UINT REPORT_TYPE, 1 *)
  (DUint 1 1 1 false                                            (* M_UINT REPORTING_RATE, 1 *)
  (DUint 1 2 1 false                                            (* M_UINT INVALID_BSIC_REPORTING, 1 *)
  (DNext false 1%nat 3 1 false                                  (* M_NEXT_EXIST Exist_NCC_PERMITTED, 1 *)
  (DUint 8 4 1 false                                            (* M_UINT NCC_PERMITTED, 8 *)
  (DNext false 1%nat 8 4 false                                  (* M_NEXT_EXIST Exist_GPRSMeasurementParams, 1 *)
  (DType 12 21 false MeasurementParams_t                        (* M_TYPE GPRSMeasurementParams, MeasurementParams_t *)
  (DNext false 1%nat 36 4 false                                 (* M_NEXT_EXIST Exist_GPRSMeasurementParams3G, 1 *)
  (DType 40 11 false GPRSMeasurementParams3G_PSI5_t             (* M_TYPE GPRSMeasurementParams3G, GPRSMeasurementParams3G_PSI5_t *)
  DEnd))))))))).
(** csn1_ts_44_060.c:4263-4269; the structure: csn1_defs.h:3142. *)
Definition PSI5_AdditionsR7 : descr :=
  (DNext false 1%nat 0 1 false                                  (* M_NEXT_EXIST Exist_OffsetThreshold_700, 1 *)
  (DType 1 2 false OffsetThreshold_t                            (* M_TYPE OffsetThreshold_700, OffsetThreshold_t *)
  (DNext false 1%nat 3 1 false                                  (* M_NEXT_EXIST Exist_OffsetThreshold_810, 1 *)
  (DType 4 2 false OffsetThreshold_t                            (* M_TYPE OffsetThreshold_810, OffsetThreshold_t *)
  DEnd)))).
(** csn1_ts_44_060.c:4272-4278; the structure: csn1_defs.h:3150. *)
Definition PSI5_AdditionsR5 : descr :=
  (DNext false 1%nat 0 1 false                                  (* M_NEXT_EXIST Exist_GPRS_AdditionalMeasurementParams3G, 1 *)
  (DType 1 2 false GPRS_AdditionalMeasurementParams3G_t         (* M_TYPE GPRS_AdditionalMeasurementParams3G, GPRS_AdditionalMeasurementParams3G_t *)
  (DNext false 1%nat 3 1 false                                  (* M_NEXT_EXIST Exist_AdditionsR7, 1 *)
  (DType 4 6 false PSI5_AdditionsR7                             (* M_TYPE AdditionsR7, PSI5_AdditionsR7 *)
  DEnd)))).
(** csn1_ts_44_060.c:4281-4287; the structure: csn1_defs.h:3158. *)
Definition PSI5_AdditionsR99 : descr :=
  (DNext false 1%nat 0 1 false                                  (* M_NEXT_EXIST Exist_ENH_Reporting_Param, 1 *)
  (DType 4 52 false ENH_Reporting_Parameters_t                  (* M_TYPE ENH_Reporting_Param, ENH_Reporting_Parameters_t *)
  (DNext false 1%nat 56 1 false                                 (* M_NEXT_EXIST Exist_AdditionsR5, 1 *)
  (DType 57 10 false PSI5_AdditionsR5                           (* M_TYPE AdditionisR5, PSI5_AdditionsR5 *)
  DEnd)))).
(** csn1_ts_44_060.c:4290-4306; the structure: csn1_defs.h:3173. *)
Definition PSI5_t : descr :=
  (DUint 6 0 1 false                                            (* M_UINT MESSAGE_TYPE, 6 *)
  (DUint 2 1 1 false                                            (* M_UINT PAGE_MODE, 2 *)
  (DUint 2 2 1 false                                            (* M_UINT CHANGE_MARK, 2 *)
  (DUint 3 3 1 false                                            (* M_UINT INDEX, 3 *)
  (DUint 3 4 1 false                                            (* M_UINT COUNT, 3 *)
  (DNext false 1%nat 5 1 false                                  (* M_NEXT_EXIST Eixst_NC_Meas_Param, 1 *)
  (DType 6 5 false NC_Measurement_Parameters_t                  (* M_TYPE NC_Meas_Param, NC_Measurement_Parameters_t *)
  (DFixed 1 0                                                   (* M_FIXED 1, 0x00 *)
  (DNext false 1%nat 11 1 false                                 (* M_NEXT_EXIST Exist_AdditionsR99, 1 *)
  (DType 12 68 false PSI5_AdditionsR99                          (* M_TYPE AdditionsR99, PSI5_AdditionsR99 *)
  (DPad                                                         (* M_PADDING_BITS *)
  DEnd))))))))))).
(** csn1_ts_44_060.c:100-106; the structure: csn1_defs.h:1028. *)
Definition GPRS_Power_Control_Parameters_t : descr :=
  (DUint 4 0 1 false                                            (* M_UINT ALPHA, 4 *)
  (DUint 5 1 1 false                                            (* M_UINT T_AVG_W, 5 *)
  (DUint 5 2 1 false                                            (* M_UINT T_AVG_T, 5 *)
  (DUint 1 3 1 false                                            (* M_UINT PC_MEAS_CHAN, 1 *)
  (DUint 4 4 1 false                                            (* M_UINT N_AVG_I, 4 *)
  DEnd))))).
(** csn1_ts_44_060.c:280-287; the structure: csn1_defs.h:1038. *)
Definition PBCCH_Not_present_t : descr :=
  (DUint 8 0 1 false                                            (* M_UINT RAC, 8 *)
  (DUint 1 1 1 false                                            (* M_UINT SPGC_CCCH_SUP, 1 *)
  (DUint 3 2 1 false                                            (* M_UINT PRIORITY_ACCESS_THR, 3 *)
  (DUint 2 3 1 false                                            (* M_UINT NETWORK_CONTROL_ORDER, 2 *)
  (DType 4 21 false GPRS_Cell_Options_t                         (* M_TYPE GPRS_Cell_Options, GPRS_Cell_Options_t *)
  (DType 25 5 false GPRS_Power_Control_Parameters_t             (* M_TYPE GPRS_Power_Control_Parameters, GPRS_Power_Control_Parameters_t *)
  DEnd)))))).
(** csn1_ts_44_060.c:290-295, the list of alternatives. *)
Definition ch_SI13_PBCCH_Description_Channel : descr :=
  (DAlt 2 0 false (DNull 0 DEnd)
  (DAlt 2 1 false (DUint 10 4 2 false DEnd)
  (DAlt 1 1 false (DUint 6 4 1 false DEnd)
  DEnd))).
(** csn1_ts_44_060.c:298-304; the structure: csn1_defs.h:1053. *)
Definition PBCCH_Description_t : descr :=
  (DUint 4 0 1 false                                            (* M_UINT Pb, 4 *)
  (DUint 3 1 1 false                                            (* M_UINT TSC, 3 *)
  (DUint 3 2 1 false                                            (* M_UINT TN, 3 *)
  (DChoice 3 1 ch_SI13_PBCCH_Description_Channel                (* M_CHOICE UnionType, SI13_PBCCH_Description_Channel, ElementsOf(SI13_PBCCH_Description_Channel) *)
  DEnd)))).
(** csn1_ts_44_060.c:307-310; the structure: csn1_defs.h:1059. *)
Definition PBCCH_present_t : descr :=
  (DUint 4 0 1 false                                            (* M_UINT PSI1_REPEAT_PERIOD, 4 *)
  (DType 2 6 false PBCCH_Description_t                          (* M_TYPE PBCCH_Description, PBCCH_Description_t *)
  DEnd)).
(** csn1_ts_44_060.c:4312-4316; the structure: csn1_defs.h:3186. *)
Definition PSI13_AdditionsR6 : descr :=
  (DNext false 1%nat 0 1 false                                  (* M_NEXT_EXIST Exist_LB_MS_TXPWR_MAX_CCH, 1 *)
  (DUint 5 1 1 false                                            (* M_UINT LB_MS_TXPWR_MAX_CCH, 5 *)
  (DUint 2 2 1 false                                            (* M_UINT SI2n_SUPPORT, 2 *)
  DEnd))).
(** csn1_ts_44_060.c:4319-4323; the structure: csn1_defs.h:3195. *)
Definition PSI13_AdditionsR4 : descr :=
  (DUint 1 0 1 false                                            (* M_UINT SI_STATUS_IND, 1 *)
  (DNext false 1%nat 1 1 false                                  (* M_NEXT_EXIST Exist_AdditionsR6, 1 *)
  (DType 2 3 false PSI13_AdditionsR6                            (* M_TYPE AdditionsR6, PSI13_AdditionsR6 *)
  DEnd))).
(** csn1_ts_44_060.c:4326-4330; the structure: csn1_defs.h:3204. *)
Definition PSI13_AdditionR99 : descr :=
  (DUint 1 0 1 false                                            (* M_UINT SGSNR, 1 *)
  (DNext false 1%nat 4 4 false                                  (* M_NEXT_EXIST Exist_AdditionsR4, 1 *)
  (DType 8 5 false PSI13_AdditionsR4                            (* M_TYPE AdditionsR4, PSI13_AdditionsR4 *)
  DEnd))).
(** csn1_ts_44_060.c:4333-4351; the structure: csn1_defs.h:3230. *)
Definition PSI13_t : descr :=
  (DUint 6 1 1 false                                            (* M_UINT MESSAGE_TYPE, 6 *)
  (DUint 2 2 1 false                                            (* M_UINT PAGE_MODE, 2 *)
  (DUint 3 3 1 false                                            (* M_UINT BCCH_CHANGE_MARK, 3 *)
  (DUint 4 4 1 false                                            (* M_UINT SI_CHANGE_FIELD, 4 *)
  (DNext false 2%nat 5 1 false                                  (* M_NEXT_EXIST Exist_MA, 2 *)
  (DUint 2 6 1 false                                            (* M_UINT SI13_CHANGE_MARK, 2 *)
  (DType 7 24 false GPRS_Mobile_Allocation_t                    (* M_TYPE GPRS_Mobile_Allocation, GPRS_Mobile_Allocation_t *)
  (DUnion false 2%nat 31 1                                      (* M_UNION *)
  (DType 32 30 false PBCCH_Not_present_t                        (* M_TYPE u.PBCCH_Not_present, PBCCH_Not_present_t *)
  (DType 32 8 false PBCCH_present_t                             (* M_TYPE u.PBCCH_present, PBCCH_present_t *)
  (DNext false 1%nat 64 4 false                                 (* M_NEXT_EXIST Exist_AdditionsR99, 1 *)
  (DType 68 16 false PSI13_AdditionR99                          (* M_TYPE AdditionsR99, PSI13_AdditionR99 *)
  (DPad                                                         (* M_PADDING_BITS *)
  DEnd))))))))))))).
(** csn1_ts_44_018.c:339-344; the structure: csn1_defs.h:813. *)
Definition IA_AdditionsR13_t : descr :=
  (DNext true 3%nat 0 4 false                                   (* M_NEXT_EXIST_LH Exist_AdditionsR13, 3 *)
  (DUint 1 4 1 false                                            (* M_UINT ImplicitRejectPS, 1 *)
  (DUint 2 5 1 false                                            (* M_UINT PEO_BCCH_CHANGE_MARK, 2 *)
  (DUint 3 6 1 false                                            (* M_UINT RCC, 3 *)
  DEnd)))).
(** csn1_ts_44_018.c:347-350; the structure: csn1_defs.h:819. *)
Definition IA_RestOctetsLL_t : descr :=
  (DUintLH 1 0 1                                                (* M_UINT_LH Compressed_Inter_RAT_HO_INFO_IND, 1 *)
  (DType 4 8 true IA_AdditionsR13_t                             (* M_TYPE_OR_NULL AdditionsR13, IA_AdditionsR13_t *)
  DEnd)).
(** csn1_ts_44_018.c:154-166; the structure: csn1_defs.h:626. *)
Definition EGPRS_TwoPhaseAccess_t : descr :=
  (DNext false 1%nat 0 4 false                                  (* M_NEXT_EXIST Exist_ALPHA, 1 *)
  (DUint 4 4 1 false                                            (* M_UINT ALPHA, 4 *)
  (DUint 5 5 1 false                                            (* M_UINT GAMMA, 5 *)
  (DType 6 3 false StartingTime_t                               (* M_TYPE TBF_STARTING_TIME, StartingTime_t *)
  (DUint 2 9 1 false                                            (* M_UINT NR_OF_RADIO_BLOCKS_ALLOCATED, 2 *)
  (DNext false 3%nat 12 4 false                                 (* M_NEXT_EXIST Exist_P0_BTS_PWR_CTRL_PR_MODE, 3 *)
  (DUint 4 16 1 false                                           (* M_UINT P0, 4 *)
  (DUint 1 17 1 false                                           (* M_UINT BTS_PWR_CTRL_MODE, 1 *)
  (DUint 1 18 1 false                                           (* M_UINT PR_MODE, 1 *)
  DEnd))))))))).
(** csn1_ts_44_018.c:144-151; the structure: csn1_defs.h:611. *)
Definition DynamicAllocation_t : descr :=
  (DUint 3 0 1 false                                            (* M_UINT USF, 3 *)
  (DUint 1 1 1 false                                            (* M_UINT USF_GRANULARITY, 1 *)
  (DNext false 2%nat 2 1 false                                  (* M_NEXT_EXIST Exist_P0_PR_MODE, 2 *)
  (DUint 4 3 1 false                                            (* M_UINT P0, 4 *)
  (DUint 1 4 1 false                                            (* M_UINT PR_MODE, 1 *)
  DEnd))))).
(** csn1_ts_44_018.c:169-196; the structure: csn1_defs.h:659. *)
Definition EGPRS_OnePhaseAccess_t : descr :=
  (DUint 5 0 1 false                                            (* M_UINT TFI_ASSIGNMENT, 5 *)
  (DUint 1 1 1 false                                            (* M_UINT POLLING, 1 *)
  (DUnion false 2%nat 2 1                                       (* M_UNION *)
  (DType 3 5 false DynamicAllocation_t                          (* M_TYPE Allocation.DynamicAllocation, DynamicAllocation_t *)
  (DTrap (-8)                                                   (* CSN_ERROR "1 <Fixed Allocation>", CSN_ERROR_STREAM_NOT_SUPPORTED *)
  (DUint 4 8 1 false                                            (* M_UINT EGPRS_CHANNEL_CODING_COMMAND, 4 *)
  (DUint 1 9 1 false                                            (* M_UINT TLLI_BLOCK_CHANNEL_CODING, 1 *)
  (DNext false 1%nat 12 4 false                                 (* M_NEXT_EXIST Exist_BEP_PERIOD2, 1 *)
  (DUint 4 16 1 false                                           (* M_UINT BEP_PERIOD2, 4 *)
  (DUint 1 17 1 false                                           (* M_UINT RESEGMENT, 1 *)
  (DUint 5 18 1 false                                           (* M_UINT EGPRS_WindowSize, 5 *)
  (DNext false 1%nat 20 4 false                                 (* M_NEXT_EXIST Exist_ALPHA, 1 *)
  (DUint 4 24 1 false                                           (* M_UINT ALPHA, 4 *)
  (DUint 5 25 1 false                                           (* M_UINT GAMMA, 5 *)
  (DNext false 1%nat 28 4 false                                 (* M_NEXT_EXIST Exist_TIMING_ADVANCE_INDEX, 1 *)
  (DUint 4 32 1 false                                           (* M_UINT TIMING_ADVANCE_INDEX, 4 *)
  (DNext false 1%nat 36 4 false                                 (* M_NEXT_EXIST Exist_TBF_STARTING_TIME, 1 *)
  (DType 40 3 false StartingTime_t                              (* M_TYPE TBF_STARTING_TIME, StartingTime_t *)
  DEnd)))))))))))))))))).
(** csn1_ts_44_018.c:200-208; the structure: csn1_defs.h:676. *)
Definition IA_EGPRS_PktUlAss_t : descr :=
  (DUint 5 0 1 false                                            (* M_UINT ExtendedRA, 5 *)
  (DRecArr 4 1 2 12                                             (* M_REC_ARRAY AccessTechnologyType, NrOfAccessTechnologies, 4 *)
  (DUnion false 2%nat 14 1                                      (* M_UNION *)
  (DType 16 20 false EGPRS_TwoPhaseAccess_t                     (* M_TYPE Access.TwoPhaseAccess, EGPRS_TwoPhaseAccess_t *)
  (DType 16 44 false EGPRS_OnePhaseAccess_t                     (* M_TYPE Access.OnePhaseAccess, EGPRS_OnePhaseAccess_t *)
  DEnd))))).
(** csn1_ts_44_018.c:212-223; the structure: csn1_defs.h:682. *)
Definition IA_MultiBlock_PktDlAss_t : descr :=
  (DType 0 3 false StartingTime_t                               (* M_TYPE TBF_STARTING_TIME, StartingTime_t *)
  (DUint 4 3 1 false                                            (* M_UINT NOF_BLOCKS, 4 *)
  (DFixed 1 0                                                   (* M_FIXED 1, 0x00 *)
  DEnd))).
(** csn1_ts_44_018.c:353-357; the structure: csn1_defs.h:828. *)
Definition IA_RestOctetsLH0x_t : descr :=
  (DUnion false 2%nat 0 1                                       (* M_UNION *)
  (DType 4 60 false IA_EGPRS_PktUlAss_t                         (* M_TYPE u.EGPRS_PktUlAss, IA_EGPRS_PktUlAss_t *)
  (DType 4 4 false IA_MultiBlock_PktDlAss_t                     (* M_TYPE u.MultiBlock_PktDlAss, IA_MultiBlock_PktDlAss_t *)
  DEnd))).
(** csn1_ts_44_018.c:360-366; the structure: csn1_defs.h:836. *)
Definition IA_RestOctetsLH_t : descr :=
  (DUnion false 2%nat 0 1                                       (* M_UNION *)
  (DType 4 64 false IA_RestOctetsLH0x_t                         (* M_TYPE lh0x, IA_RestOctetsLH0x_t *)
  (DTrap (-8)                                                   (* CSN_ERROR "1 -- reserved for future use", CSN_ERROR_STREAM_NOT_SUPPORTED *)
  (DType 68 8 true IA_AdditionsR13_t                            (* M_TYPE_OR_NULL AdditionsR13, IA_AdditionsR13_t *)
  DEnd)))).
(** csn1_ts_44_018.c:226-230; the structure: csn1_defs.h:689. *)
Definition IA_FreqParamsBeforeTime_t : descr :=
  (DUint 6 0 1 false                                            (* M_UINT Length, 6 *)
  (DUint 6 1 1 false                                            (* M_UINT MAIO, 6 *)
  (DVarArr 8 0 2 62                                             (* M_VAR_ARRAY MobileAllocation, Length, 8 *)
  DEnd))).
(** csn1_ts_44_018.c:369-373; the structure: csn1_defs.h:843. *)
Definition IA_RestOctetsHL_t : descr :=
  (DType 0 64 false IA_FreqParamsBeforeTime_t                   (* M_TYPE IA_FrequencyParams, IA_FreqParamsBeforeTime_t *)
  (DUintLH 1 64 1                                               (* M_UINT_LH Compressed_Inter_RAT_HO_INFO_IND, 1 *)
  (DType 68 8 true IA_AdditionsR13_t                            (* M_TYPE_OR_NULL AdditionsR13, IA_AdditionsR13_t *)
  DEnd))).
(** csn1_ts_44_018.c:233-245; the structure: csn1_defs.h:704. *)
Definition GPRS_SingleBlockAllocation_t : descr :=
  (DNext false 1%nat 0 4 false                                  (* M_NEXT_EXIST Exist_ALPHA, 1 *)
  (DUint 4 4 1 false                                            (* M_UINT ALPHA, 4 *)
  (DUint 5 5 1 false                                            (* M_UINT GAMMA, 5 *)
  (DFixed 2 1                                                   (* M_FIXED 2, 0x01 *)
  (DType 7 3 false StartingTime_t                               (* M_TYPE TBF_STARTING_TIME, StartingTime_t *)
  (DNext true 3%nat 12 4 false                                  (* M_NEXT_EXIST_LH Exist_P0_BTS_PWR_CTRL_PR_MODE, 3 *)
  (DUint 4 16 1 false                                           (* M_UINT P0, 4 *)
  (DUint 1 17 1 false                                           (* M_UINT BTS_PWR_CTRL_MODE, 1 *)
  (DUint 1 18 1 false                                           (* M_UINT PR_MODE, 1 *)
  DEnd))))))))).
(** csn1_ts_44_018.c:248-269; the structure: csn1_defs.h:731. *)
Definition GPRS_DynamicOrFixedAllocation_t : descr :=
  (DUint 5 0 1 false                                            (* M_UINT TFI_ASSIGNMENT, 5 *)
  (DUint 1 1 1 false                                            (* M_UINT POLLING, 1 *)
  (DUnion false 2%nat 2 1                                       (* M_UNION *)
  (DType 3 5 false DynamicAllocation_t                          (* M_TYPE Allocation.DynamicAllocation, DynamicAllocation_t *)
  (DTrap (-8)                                                   (* CSN_ERROR "1 <Fixed Allocation>", CSN_ERROR_STREAM_NOT_SUPPORTED *)
  (DUint 2 8 1 false                                            (* M_UINT CHANNEL_CODING_COMMAND, 2 *)
  (DUint 1 9 1 false                                            (* M_UINT TLLI_BLOCK_CHANNEL_CODING, 1 *)
  (DNext false 1%nat 10 1 false                                 (* M_NEXT_EXIST Exist_ALPHA, 1 *)
  (DUint 4 11 1 false                                           (* M_UINT ALPHA, 4 *)
  (DUint 5 12 1 false                                           (* M_UINT GAMMA, 5 *)
  (DNext false 1%nat 13 1 false                                 (* M_NEXT_EXIST Exist_TIMING_ADVANCE_INDEX, 1 *)
  (DUint 4 14 1 false                                           (* M_UINT TIMING_ADVANCE_INDEX, 4 *)
  (DNext false 1%nat 15 1 false                                 (* M_NEXT_EXIST Exist_TBF_STARTING_TIME, 1 *)
  (DType 16 3 false StartingTime_t                              (* M_TYPE TBF_STARTING_TIME, StartingTime_t *)
  DEnd)))))))))))))).
(** csn1_ts_44_018.c:272-275; the structure: csn1_defs.h:737. *)
Definition PU_IA_AdditionsR99_t : descr :=
  (DNext false 1%nat 0 4 false                                  (* M_NEXT_EXIST Exist_ExtendedRA, 1 *)
  (DUint 5 4 1 false                                            (* M_UINT ExtendedRA, 5 *)
  DEnd)).
(** csn1_ts_44_018.c:278-285; the structure: csn1_defs.h:750. *)
Definition Packet_Uplink_ImmAssignment_t : descr :=
  (DUnion false 2%nat 0 1                                       (* M_UNION *)
  (DType 4 20 false GPRS_SingleBlockAllocation_t                (* M_TYPE Access.SingleBlockAllocation, GPRS_SingleBlockAllocation_t *)
  (DType 4 19 false GPRS_DynamicOrFixedAllocation_t             (* M_TYPE Access.DynamicOrFixedAllocation, GPRS_DynamicOrFixedAllocation_t *)
  (DNext true 1%nat 24 4 true                                   (* M_NEXT_EXIST_OR_NULL_LH Exist_AdditionsR99, 1 *)
  (DType 28 8 false PU_IA_AdditionsR99_t                        (* M_TYPE AdditionsR99, PU_IA_AdditionsR99_t *)
  DEnd))))).
(** csn1_ts_44_018.c:288-294; the structure: csn1_defs.h:759. *)
Definition PD_IA_AdditionsR99_t : descr :=
  (DUint 5 0 1 false                                            (* M_UINT EGPRS_WindowSize, 5 *)
  (DUint 2 1 1 false                                            (* M_UINT LINK_QUALITY_MEASUREMENT_MODE, 2 *)
  (DNext false 1%nat 4 4 false                                  (* M_NEXT_EXIST Exist_BEP_PERIOD2, 1 *)
  (DUint 4 8 1 false                                            (* M_UINT BEP_PERIOD2, 4 *)
  DEnd)))).
(** csn1_ts_44_018.c:297-322; the structure: csn1_defs.h:787. *)
Definition Packet_Downlink_ImmAssignment_t : descr :=
  (DUint 32 0 4 false                                           (* M_UINT TLLI, 32 *)
  (DNext false 7%nat 4 1 false                                  (* M_NEXT_EXIST Exist_TFI_to_TA_VALID, 6 + 1 *)
  (DUint 5 5 1 false                                            (* M_UINT TFI_ASSIGNMENT, 5 *)
  (DUint 1 6 1 false                                            (* M_UINT RLC_MODE, 1 *)
  (DNext false 1%nat 7 1 false                                  (* M_NEXT_EXIST Exist_ALPHA, 1 *)
  (DUint 4 8 1 false                                            (* M_UINT ALPHA, 4 *)
  (DUint 5 9 1 false                                            (* M_UINT GAMMA, 5 *)
  (DUint 1 10 1 false                                           (* M_UINT POLLING, 1 *)
  (DUint 1 11 1 false                                           (* M_UINT TA_VALID, 1 *)
  (DNext false 1%nat 12 1 false                                 (* M_NEXT_EXIST Exist_TIMING_ADVANCE_INDEX, 1 *)
  (DUint 4 13 1 false                                           (* M_UINT TIMING_ADVANCE_INDEX, 4 *)
  (DNext false 1%nat 14 1 false                                 (* M_NEXT_EXIST Exist_TBF_STARTING_TIME, 1 *)
  (DType 15 3 false StartingTime_t                              (* M_TYPE TBF_STARTING_TIME, StartingTime_t *)
  (DNext false 3%nat 18 1 false                                 (* M_NEXT_EXIST Exist_P0_PR_MODE, 3 *)
  (DUint 4 19 1 false                                           (* M_UINT P0, 4 *)
  (DUint 1 20 1 false                                           (* M_UINT BTS_PWR_CTRL_MODE, 1 *)
  (DUint 1 21 1 false                                           (* M_UINT PR_MODE, 1 *)
  (DNext true 1%nat 24 4 true                                   (* M_NEXT_EXIST_OR_NULL_LH Exist_AdditionsR99, 1 *)
  (DType 28 12 false PD_IA_AdditionsR99_t                       (* M_TYPE AdditionsR99, PD_IA_AdditionsR99_t *)
  DEnd))))))))))))))))))).
(** csn1_ts_44_018.c:332-336; the structure: csn1_defs.h:805. *)
Definition IA_PacketAssignment_UL_DL_t : descr :=
  (DUnion false 2%nat 0 1                                       (* M_UNION *)
  (DType 4 36 false Packet_Uplink_ImmAssignment_t               (* M_TYPE ul_dl.Packet_Uplink_ImmAssignment, Packet_Uplink_ImmAssignment_t *)
  (DType 4 40 false Packet_Downlink_ImmAssignment_t             (* M_TYPE ul_dl.Packet_Downlink_ImmAssignment, Packet_Downlink_ImmAssignment_t *)
  DEnd))).
(** csn1_ts_44_018.c:325-329; the structure: csn1_defs.h:795. *)
Definition Second_Part_Packet_Assignment_t : descr :=
  (DNext true 2%nat 0 4 true                                    (* M_NEXT_EXIST_OR_NULL_LH Exist_SecondPart, 2 *)
  (DNext false 1%nat 4 4 false                                  (* M_NEXT_EXIST Exist_ExtendedRA, 1 *)
  (DUint 5 8 1 false                                            (* M_UINT ExtendedRA, 5 *)
  DEnd))).
(** csn1_ts_44_018.c:376-388; the structure: csn1_defs.h:860. *)
Definition IA_RestOctetsHH_t : descr :=
  (DUnion false 2%nat 0 1                                       (* M_UNION *)
  (DType 4 44 false IA_PacketAssignment_UL_DL_t                 (* M_TYPE u.UplinkDownlinkAssignment, IA_PacketAssignment_UL_DL_t *)
  (DType 4 12 false Second_Part_Packet_Assignment_t             (* M_TYPE u.SecondPartPacketAssignment, Second_Part_Packet_Assignment_t *)
  (DNext true 2%nat 48 4 true                                   (* M_NEXT_EXIST_OR_NULL_LH Exist_AdditionsR10, 2 *)
  (DUint 1 52 1 false                                           (* M_UINT ImplicitRejectCS, 1 *)
  (DUint 1 53 1 false                                           (* M_UINT ImplicitRejectPS, 1 *)
  (DNext true 2%nat 56 4 true                                   (* M_NEXT_EXIST_OR_NULL_LH Exist_AdditionsR13, 2 *)
  (DUint 2 60 1 false                                           (* M_UINT PEO_BCCH_CHANGE_MARK, 2 *)
  (DUint 3 61 1 false                                           (* M_UINT RCC, 3 *)
  DEnd))))))))).
(** csn1_ts_44_018.c:392-401; the structure: csn1_defs.h:872. *)
Definition IA_RestOctets_t : descr :=
  (DUnion true 4%nat 0 1                                        (* M_UNION_LH *)
  (DType 4 12 false IA_RestOctetsLL_t                           (* M_TYPE u.ll, IA_RestOctetsLL_t *)
  (DType 4 76 false IA_RestOctetsLH_t                           (* M_TYPE u.lh, IA_RestOctetsLH_t *)
  (DType 4 76 false IA_RestOctetsHL_t                           (* M_TYPE u.hl, IA_RestOctetsHL_t *)
  (DType 4 64 false IA_RestOctetsHH_t                           (* M_TYPE u.hh, IA_RestOctetsHH_t *)
  (DPad                                                         (* M_PADDING_BITS *)
  DEnd)))))).
(** csn1_ts_44_018.c:404-408; the structure: csn1_defs.h:3188. *)
Definition SI13_AdditionsR6 : descr :=
  (DNext false 1%nat 0 1 false                                  (* M_NEXT_EXIST Exist_LB_MS_TXPWR_MAX_CCH, 1 *)
  (DUint 5 1 1 false                                            (* M_UINT LB_MS_TXPWR_MAX_CCH, 5 *)
  (DUint 2 2 1 false                                            (* M_UINT SI2n_SUPPORT, 2 *)
  DEnd))).
(** csn1_ts_44_018.c:411-415; the structure: csn1_defs.h:3197. *)
Definition SI13_AdditionsR4 : descr :=
  (DUint 1 0 1 false                                            (* M_UINT SI_STATUS_IND, 1 *)
  (DNext true 1%nat 1 1 true                                    (* M_NEXT_EXIST_OR_NULL_LH Exist_AdditionsR6, 1 *)
  (DType 2 3 false SI13_AdditionsR6                             (* M_TYPE AdditionsR6, SI13_AdditionsR6 *)
  DEnd))).
(** csn1_ts_44_018.c:418-422; the structure: csn1_defs.h:3206. *)
Definition SI13_AdditionR99 : descr :=
  (DUint 1 0 1 false                                            (* M_UINT SGSNR, 1 *)
  (DNext true 1%nat 4 4 true                                    (* M_NEXT_EXIST_OR_NULL_LH Exist_AdditionsR4, 1 *)
  (DType 8 5 false SI13_AdditionsR4                             (* M_TYPE AdditionsR4, SI13_AdditionsR4 *)
  DEnd))).
(** csn1_ts_44_018.c:425-442; the structure: csn1_defs.h:3233. *)
Definition SI13_RestOctets_t : descr :=
  (DExist true 0 1                                              (* M_THIS_EXIST_LH *)
  (DUint 3 3 1 false                                            (* M_UINT BCCH_CHANGE_MARK, 3 *)
  (DUint 4 4 1 false                                            (* M_UINT SI_CHANGE_FIELD, 4 *)
  (DNext false 2%nat 5 1 false                                  (* M_NEXT_EXIST Exist_MA, 2 *)
  (DUint 2 6 1 false                                            (* M_UINT SI13_CHANGE_MARK, 2 *)
  (DType 7 24 false GPRS_Mobile_Allocation_t                    (* M_TYPE GPRS_Mobile_Allocation, GPRS_Mobile_Allocation_t *)
  (DUnion false 2%nat 31 1                                      (* M_UNION *)
  (DType 32 30 false PBCCH_Not_present_t                        (* M_TYPE u.PBCCH_Not_present, PBCCH_Not_present_t *)
  (DType 32 8 false PBCCH_present_t                             (* M_TYPE u.PBCCH_present, PBCCH_present_t *)
  (DNext true 1%nat 64 4 true                                   (* M_NEXT_EXIST_OR_NULL_LH Exist_AdditionsR99, 1 *)
  (DType 68 16 false SI13_AdditionR99                           (* M_TYPE AdditionsR99, SI13_AdditionR99 *)
  (DPad                                                         (* M_PADDING_BITS *)
  DEnd)))))))))))).
(** csn1_ts_44_018.c:83-89; the structure: csn1_defs.h:499. *)
Definition Group_Call_Reference_t : descr :=
  (DUint 27 0 4 false                                           (* M_UINT value, 27 *)
  (DUint 1 4 1 false                                            (* M_UINT SF, 1 *)
  (DUint 1 5 1 false                                            (* M_UINT AF, 1 *)
  (DUint 3 6 1 false                                            (* M_UINT call_priority, 3 *)
  (DUint 4 7 1 false                                            (* M_UINT Ciphering_information, 4 *)
  DEnd))))).
(** csn1_ts_44_018.c:45-48; the structure: csn1_defs.h:522. *)
Definition SingleRFChannel_t : descr :=
  (DUint 2 0 1 false                                            (* M_UINT spare, 2 *)
  (DUint 10 2 2 false                                           (* M_UINT ARFCN, 10 *)
  DEnd)).
(** csn1_ts_44_018.c:51-54; the structure: csn1_defs.h:528. *)
Definition RFHoppingChannel_t : descr :=
  (DUint 6 0 1 false                                            (* M_UINT MAIO, 6 *)
  (DUint 6 1 1 false                                            (* M_UINT HSN, 6 *)
  DEnd)).
(** csn1_ts_44_018.c:64-72; the structure: csn1_defs.h:542. *)
Definition Channel_Description_t : descr :=
  (DUint 5 0 1 false                                            (* M_UINT Channel_type_and_TDMA_offset, 5 *)
  (DUint 3 1 1 false                                            (* M_UINT TN, 3 *)
  (DUint 3 2 1 false                                            (* M_UINT TSC, 3 *)
  (DUnion false 2%nat 3 1                                       (* M_UNION *)
  (DType 4 4 false SingleRFChannel_t                            (* M_TYPE u.SingleRFChannel, SingleRFChannel_t *)
  (DType 4 2 false RFHoppingChannel_t                           (* M_TYPE u.RFHoppingChannel, RFHoppingChannel_t *)
  DEnd)))))).
(** csn1_ts_44_018.c:39-42; the structure: csn1_defs.h:506. *)
Definition MobileAllocationIE_t : descr :=
  (DUint 8 0 1 false                                            (* M_UINT Length, 8 *)
  (DVarArr 0 0 1 8                                              (* M_VAR_ARRAY MA, Length, 0 *)
  DEnd)).
(** csn1_ts_44_018.c:57-61; the structure: csn1_defs.h:516. *)
Definition MobileAllocation_or_Frequency_Short_List_t : descr :=
  (DUnion false 2%nat 0 1                                       (* M_UNION *)
  (DBitmap 64 1 8                                               (* M_BITMAP u.Frequency_Short_List, 64 *)
  (DType 1 9 false MobileAllocationIE_t                         (* M_TYPE u.MA, MobileAllocationIE_t *)
  DEnd))).
(** csn1_ts_44_018.c:75-80; the structure: csn1_defs.h:551. *)
Definition Group_Channel_Description_t : descr :=
  (DType 0 8 false Channel_Description_t                        (* M_TYPE Channel_Description, Channel_Description_t *)
  (DNext false 1%nat 8 1 false                                  (* M_NEXT_EXIST Exist_Hopping, 1 *)
  (DType 9 10 false MobileAllocation_or_Frequency_Short_List_t  (* M_TYPE MA_or_Frequency_Short_List, MobileAllocation_or_Frequency_Short_List_t *)
  DEnd))).
(** csn1_ts_44_018.c:92-97; the structure: csn1_defs.h:559. *)
Definition Group_Call_information_t : descr :=
  (DType 0 8 false Group_Call_Reference_t                       (* M_TYPE Group_Call_Reference, Group_Call_Reference_t *)
  (DNext false 1%nat 8 1 false                                  (* M_NEXT_EXIST Exist_Group_Channel_Description, 1 *)
  (DType 10 20 false Group_Channel_Description_t                (* M_TYPE Group_Channel_Description, Group_Channel_Description_t *)
  DEnd))).
(** csn1_ts_44_018.c:100-118; the structure: csn1_defs.h:578. *)
Definition P1_Rest_Octets_t : descr :=
  (DNext true 2%nat 0 1 false                                   (* M_NEXT_EXIST_LH Exist_NLN_PCH_and_NLN_status, 2 *)
  (DUint 2 1 1 false                                            (* M_UINT NLN_PCH, 2 *)
  (DUint 1 2 1 false                                            (* M_UINT NLN_status, 1 *)
  (DNext true 1%nat 3 1 false                                   (* M_NEXT_EXIST_LH Exist_Priority1, 1 *)
  (DUint 3 4 1 false                                            (* M_UINT Priority1, 3 *)
  (DNext true 1%nat 5 1 false                                   (* M_NEXT_EXIST_LH Exist_Priority2, 1 *)
  (DUint 3 6 1 false                                            (* M_UINT Priority2, 3 *)
  (DNext true 1%nat 7 1 false                                   (* M_NEXT_EXIST_LH Exist_Group_Call_information, 1 *)
  (DType 8 32 false Group_Call_information_t                    (* M_TYPE Group_Call_information, Group_Call_information_t *)
  (DUintLH 1 40 1                                               (* M_UINT_LH Packet_Page_Indication_1, 1 *)
  (DUintLH 1 41 1                                               (* M_UINT_LH Packet_Page_Indication_2, 1 *)
  (DPad                                                         (* M_PADDING_BITS *)
  DEnd)))))))))))).
(** csn1_ts_44_018.c:121-141; the structure: csn1_defs.h:599. *)
Definition P2_Rest_Octets_t : descr :=
  (DNext true 1%nat 0 1 false                                   (* M_NEXT_EXIST_LH Exist_CN3, 1 *)
  (DUint 2 1 1 false                                            (* M_UINT CN3, 2 *)
  (DNext true 2%nat 2 1 false                                   (* M_NEXT_EXIST_LH Exist_NLN_and_status, 2 *)
  (DUint 2 3 1 false                                            (* M_UINT NLN, 2 *)
  (DUint 1 4 1 false                                            (* M_UINT NLN_status, 1 *)
  (DNext true 1%nat 5 1 false                                   (* M_NEXT_EXIST_LH Exist_Priority1, 1 *)
  (DUint 3 6 1 false                                            (* M_UINT Priority1, 3 *)
  (DNext true 1%nat 7 1 false                                   (* M_NEXT_EXIST_LH Exist_Priority2, 1 *)
  (DUint 3 8 1 false                                            (* M_UINT Priority2, 3 *)
  (DNext true 1%nat 9 1 false                                   (* M_NEXT_EXIST_LH Exist_Priority3, 1 *)
  (DUint 3 10 1 false                                           (* M_UINT Priority3, 3 *)
  (DUintLH 1 11 1                                               (* M_UINT_LH Packet_Page_Indication_3, 1 *)
  (DPad                                                         (* M_PADDING_BITS *)
  DEnd))))))))))))).
(** csn1_ts_44_060.c:433-437, the list of alternatives. *)
Definition ch_PacketResourceRequestID : descr :=
  (DAlt 1 0 false (DType 4 2 false Global_TFI_t DEnd)
  (DAlt 1 1 false (DUint 32 4 4 false DEnd)
  DEnd)).
(** csn1_ts_44_060.c:440-442; the structure: csn1_defs.h:1653. *)
Definition PacketResourceRequestID_t : descr :=
  (DChoice 0 1 ch_PacketResourceRequestID                       (* M_CHOICE UnionType, PacketResourceRequestID, ElementsOf(PacketResourceRequestID) *)
  DEnd).
(** csn1_ts_24_008.c:166-169; the structure: csn1_defs.h:1149. *)
Definition DTM_EGPRS_t : descr :=
  (DNext false 1%nat 0 1 false                                  (* M_NEXT_EXIST Exist_DTM_EGPRS_multislot_class, 1 *)
  (DUint 2 1 1 false                                            (* M_UINT DTM_EGPRS_multislot_class, 2 *)
  DEnd)).
(** csn1_ts_24_008.c:184-207; the structure: csn1_defs.h:1188. *)
Definition Multislot_capability_t : descr :=
  (DNext false 1%nat 0 1 true                                   (* M_NEXT_EXIST_OR_NULL Exist_HSCSD_multislot_class, 1 *)
  (DUint 5 1 1 false                                            (* M_UINT HSCSD_multislot_class, 5 *)
  (DNext false 2%nat 2 1 true                                   (* M_NEXT_EXIST_OR_NULL Exist_GPRS_multislot_class, 2 *)
  (DUint 5 3 1 false                                            (* M_UINT GPRS_multislot_class, 5 *)
  (DUint 1 4 1 false                                            (* M_UINT GPRS_Extended_Dynamic_Allocation_Capability, 1 *)
  (DNext false 2%nat 5 1 true                                   (* M_NEXT_EXIST_OR_NULL Exist_SM, 2 *)
  (DUint 4 6 1 false                                            (* M_UINT SMS_VALUE, 4 *)
  (DUint 4 7 1 false                                            (* M_UINT SM_VALUE, 4 *)
  (DNext false 1%nat 8 1 true                                   (* M_NEXT_EXIST_OR_NULL Exist_ECSD_multislot_class, 1 *)
  (DUint 5 9 1 false                                            (* M_UINT ECSD_multislot_class, 5 *)
  (DNext false 2%nat 10 1 true                                  (* M_NEXT_EXIST_OR_NULL Exist_EGPRS_multislot_class, 2 *)
  (DUint 5 11 1 false                                           (* M_UINT EGPRS_multislot_class, 5 *)
  (DUint 1 12 1 false                                           (* M_UINT EGPRS_Extended_Dynamic_Allocation_Capability, 1 *)
  (DNext false 3%nat 13 1 true                                  (* M_NEXT_EXIST_OR_NULL Exist_DTM_GPRS_multislot_class, 3 *)
  (DUint 2 14 1 false                                           (* M_UINT DTM_GPRS_multislot_class, 2 *)
  (DUint 1 15 1 false                                           (* M_UINT Single_Slot_DTM, 1 *)
  (DType 16 2 false DTM_EGPRS_t                                 (* M_TYPE DTM_EGPRS_Params, DTM_EGPRS_t *)
  DEnd))))))))))))))))).
(** csn1_ts_24_008.c:172-175; the structure: csn1_defs.h:1155. *)
Definition DTM_EGPRS_HighMultislotClass_t : descr :=
  (DNext false 1%nat 0 1 false                                  (* M_NEXT_EXIST Exist_DTM_EGPRS_HighMultislotClass, 1 *)
  (DUint 3 1 1 false                                            (* M_UINT DTM_EGPRS_HighMultislotClass, 3 *)
  DEnd)).
(** csn1_ts_24_008.c:178-181; the structure: csn1_defs.h:1161. *)
Definition DownlinkDualCarrierCapability_r7_t : descr :=
  (DUint 3 0 1 false                                            (* M_UINT MultislotCapabilityReductionForDL_DualCarrier, 3 *)
  (DUint 1 1 1 false                                            (* M_UINT DL_DualCarrierForDTM, 1 *)
  DEnd)).
(** csn1_ts_24_008.c:210-280; the structure: csn1_defs.h:1269. *)
Definition Content_t : descr :=
  (DUint 3 0 1 false                                            (* M_UINT RF_Power_Capability, 3 *)
  (DNext false 1%nat 1 1 true                                   (* M_NEXT_EXIST_OR_NULL Exist_A5_bits, 1 *)
  (DUint 7 2 1 true                                             (* M_UINT_OR_NULL A5_bits, 7 *)
  (DUint 1 3 1 true                                             (* M_UINT_OR_NULL ES_IND, 1 *)
  (DUint 1 4 1 true                                             (* M_UINT_OR_NULL PS, 1 *)
  (DUint 1 5 1 true                                             (* M_UINT_OR_NULL VGCS, 1 *)
  (DUint 1 6 1 true                                             (* M_UINT_OR_NULL VBS, 1 *)
  (DNext false 1%nat 7 1 true                                   (* M_NEXT_EXIST_OR_NULL Exist_Multislot_capability, 1 *)
  (DType 8 18 false Multislot_capability_t                      (* M_TYPE Multislot_capability, Multislot_capability_t *)
  (DNext false 1%nat 26 1 true                                  (* M_NEXT_EXIST_OR_NULL Exist_Eight_PSK_Power_Capability, 1 *)
  (DUint 2 27 1 false                                           (* M_UINT Eight_PSK_Power_Capability, 2 *)
  (DUint 1 28 1 true                                            (* M_UINT_OR_NULL COMPACT_Interference_Measurement_Capability, 1 *)
  (DUint 1 29 1 true                                            (* M_UINT_OR_NULL Revision_Level_Indicator, 1 *)
  (DUint 1 30 1 true                                            (* M_UINT_OR_NULL UMTS_FDD_Radio_Access_Technology_Capability, 1 *)
  (DUint 1 31 1 true                                            (* M_UINT_OR_NULL UMTS_384_TDD_Radio_Access_Technology_Capability, 1 *)
  (DUint 1 32 1 true                                            (* M_UINT_OR_NULL CDMA2000_Radio_Access_Technology_Capability, 1 *)
  (DUint 1 33 1 true                                            (* M_UINT_OR_NULL UMTS_128_TDD_Radio_Access_Technology_Capability, 1 *)
  (DUint 1 34 1 true                                            (* M_UINT_OR_NULL GERAN_Feature_Package_1, 1 *)
  (DNext false 2%nat 35 1 true                                  (* M_NEXT_EXIST_OR_NULL Exist_Extended_DTM_multislot_class, 2 *)
  (DUint 2 36 1 false                                           (* M_UINT Extended_DTM_GPRS_multislot_class, 2 *)
  (DUint 2 37 1 false                                           (* M_UINT Extended_DTM_EGPRS_multislot_class, 2 *)
  (DUint 1 38 1 true                                            (* M_UINT_OR_NULL Modulation_based_multislot_class_support, 1 *)
  (DNext false 1%nat 39 1 true                                  (* M_NEXT_EXIST_OR_NULL Exist_HighMultislotCapability, 1 *)
  (DUint 2 40 1 false                                           (* M_UINT HighMultislotCapability, 2 *)
  (DNext false 1%nat 41 1 true                                  (* M_NEXT_EXIST_OR_NULL Exist_GERAN_lu_ModeCapability, 1 *)
  (DUint 4 42 1 false                                           (* M_UINT GERAN_lu_ModeCapability, 4 *)
  (DUint 2 43 1 true                                            (* M_UINT_OR_NULL GMSK_MultislotPowerProfile, 2 *)
  (DUint 2 44 1 true                                            (* M_UINT_OR_NULL EightPSK_MultislotProfile, 2 *)
  (DUint 1 45 1 true                                            (* M_UINT_OR_NULL MultipleTBF_Capability, 1 *)
  (DUint 2 46 1 true                                            (* M_UINT_OR_NULL DownlinkAdvancedReceiverPerformance, 2 *)
  (DUint 1 47 1 true                                            (* M_UINT_OR_NULL ExtendedRLC_MAC_ControlMessageSegmentionsCapability, 1 *)
  (DUint 1 48 1 true                                            (* M_UINT_OR_NULL DTM_EnhancementsCapability, 1 *)
  (DNext false 2%nat 49 1 true                                  (* M_NEXT_EXIST_OR_NULL Exist_DTM_GPRS_HighMultislotClass, 2 *)
  (DUint 3 50 1 false                                           (* M_UINT DTM_GPRS_HighMultislotClass, 3 *)
  (DType 51 2 false DTM_EGPRS_HighMultislotClass_t              (* M_TYPE DTM_EGPRS_HighMultislotClass, DTM_EGPRS_HighMultislotClass_t *)
  (DUint 1 53 1 true                                            (* M_UINT_OR_NULL PS_HandoverCapability, 1 *)
  (DUint 1 54 1 true                                            (* M_UINT_OR_NULL DTM_Handover_Capability, 1 *)
  (DNext false 1%nat 55 1 true                                  (* M_NEXT_EXIST_OR_NULL Exist_DownlinkDualCarrierCapability_r7, 1 *)
  (DType 56 2 true DownlinkDualCarrierCapability_r7_t           (* M_TYPE_OR_NULL DownlinkDualCarrierCapability_r7, DownlinkDualCarrierCapability_r7_t *)
  (DUint 1 58 1 true                                            (* M_UINT_OR_NULL FlexibleTimeslotAssignment, 1 *)
  (DUint 1 59 1 true                                            (* M_UINT_OR_NULL GAN_PS_HandoverCapability, 1 *)
  (DUint 1 60 1 true                                            (* M_UINT_OR_NULL RLC_Non_persistentMode, 1 *)
  (DUint 1 61 1 true                                            (* M_UINT_OR_NULL ReducedLatencyCapability, 1 *)
  (DUint 2 62 1 true                                            (* M_UINT_OR_NULL UplinkEGPRS2, 2 *)
  (DUint 2 63 1 true                                            (* M_UINT_OR_NULL DownlinkEGPRS2, 2 *)
  (DUint 1 64 1 true                                            (* M_UINT_OR_NULL EUTRA_FDD_Support, 1 *)
  (DUint 1 65 1 true                                            (* M_UINT_OR_NULL EUTRA_TDD_Support, 1 *)
  (DUint 2 66 1 true                                            (* M_UINT_OR_NULL GERAN_To_EUTRAN_supportInGERAN_PTM, 2 *)
  (DUint 1 67 1 true                                            (* M_UINT_OR_NULL PriorityBasedReselectionSupport, 1 *)
  DEnd))))))))))))))))))))))))))))))))))))))))))))))))).
(** csn1_ts_24_008.c:295-299; the structure: csn1_defs.h:1299. *)
Definition Additional_access_technologies_struct_t : descr :=
  (DUint 4 0 1 false                                            (* M_UINT Access_Technology_Type, 4 *)
  (DUint 3 1 1 false                                            (* M_UINT GMSK_Power_class, 3 *)
  (DUint 2 2 1 false                                            (* M_UINT Eight_PSK_Power_class, 2 *)
  DEnd))).
(** csn1_ts_24_008.c:302-304; the structure: csn1_defs.h:1307. *)
Definition Additional_access_technologies_t : descr :=
  (DRecTArr false 0 1 30 3 10 Additional_access_technologies_struct_t (* M_REC_TARRAY Additional_access_technologies, Additional_access_technologies_struct_t, Count_additional_access_technologies *)
  DEnd).
(** csn1_ts_24_008.c:319-336, the list of alternatives. *)
Definition ch_MS_RA_capability_value_Choice : descr :=
  (DAlt 4 0 false (DSer 7 1 68 Content_t DEnd)
  (DAlt 4 1 false (DSer 7 1 68 Content_t DEnd)
  (DAlt 4 2 false (DSer 7 1 68 Content_t DEnd)
  (DAlt 4 3 false (DSer 7 1 68 Content_t DEnd)
  (DAlt 4 4 false (DSer 7 1 68 Content_t DEnd)
  (DAlt 4 5 false (DSer 7 1 68 Content_t DEnd)
  (DAlt 4 6 false (DSer 7 1 68 Content_t DEnd)
  (DAlt 4 7 false (DSer 7 1 68 Content_t DEnd)
  (DAlt 4 8 false (DSer 7 1 68 Content_t DEnd)
  (DAlt 4 9 false (DSer 7 1 68 Content_t DEnd)
  (DAlt 4 10 false (DSer 7 1 68 Content_t DEnd)
  (DAlt 4 11 false (DSer 7 1 68 Content_t DEnd)
  (DAlt 4 12 false (DSer 7 1 68 Content_t DEnd)
  (DAlt 4 13 false (DSer 7 1 68 Content_t DEnd)
  (DAlt 4 15 false (DSer 7 1 31 Additional_access_technologies_t DEnd)
  DEnd))))))))))))))).
(** csn1_ts_24_008.c:339-341; the structure: csn1_defs.h:1319. *)
Definition MS_RA_capability_value_t : descr :=
  (DChoice 0 1 ch_MS_RA_capability_value_Choice                 (* M_CHOICE IndexOfAccTech, MS_RA_capability_value_Choice, ElementsOf(MS_RA_capability_value_Choice) *)
  DEnd).
(** csn1_ts_44_060.c:418-420; the structure: csn1_defs.h:1325. *)
Definition MS_Radio_Access_capability2_t : descr :=
  (DRecTArr true 0 1 759 69 11 MS_RA_capability_value_t         (* M_REC_TARRAY_1 MS_RA_capability_value, MS_RA_capability_value_t, Count_MS_RA_capability_value *)
  DEnd).
(** csn1_ts_44_060.c:423-429; the structure: csn1_defs.h:160. *)
Definition Channel_Request_Description_t : descr :=
  (DUint 4 0 1 false                                            (* M_UINT PEAK_THROUGHPUT_CLASS, 4 *)
  (DUint 2 1 1 false                                            (* M_UINT RADIO_PRIORITY, 2 *)
  (DUint 1 2 1 false                                            (* M_UINT RLC_MODE, 1 *)
  (DUint 1 3 1 false                                            (* M_UINT LLC_PDU_TYPE, 1 *)
  (DUint 16 4 2 false                                           (* M_UINT RLC_OCTET_COUNT, 16 *)
  DEnd))))).
(** csn1_ts_44_060.c:453-456; the structure: csn1_defs.h:1463. *)
Definition InterferenceMeasurementReport_t : descr :=
  (DNext false 1%nat 0 4 false                                  (* M_NEXT_EXIST Exist, 1 *)
  (DUint 4 4 1 false                                            (* M_UINT I_LEVEL, 4 *)
  DEnd)).
(** csn1_ts_44_060.c:468-476; the structure: csn1_defs.h:1483. *)
Definition EGPRS_BEP_LinkQualityMeasurements_t : descr :=
  (DNext false 2%nat 0 4 false                                  (* M_NEXT_EXIST Exist_MEAN_CV_BEP_GMSK, 2 *)
  (DUint 5 4 1 false                                            (* M_UINT MEAN_BEP_GMSK, 5 *)
  (DUint 3 5 1 false                                            (* M_UINT CV_BEP_GMSK, 3 *)
  (DNext false 2%nat 8 4 false                                  (* M_NEXT_EXIST Exist_MEAN_CV_BEP_8PSK, 2 *)
  (DUint 5 12 1 false                                           (* M_UINT MEAN_BEP_8PSK, 5 *)
  (DUint 3 13 1 false                                           (* M_UINT CV_BEP_8PSK, 3 *)
  DEnd)))))).
(** csn1_ts_44_060.c:445-450; the structure: csn1_defs.h:1457. *)
Definition BEP_MeasurementReport_t : descr :=
  (DNext false 3%nat 0 4 false                                  (* M_NEXT_EXIST Exist, 3 *)
  (DUnion false 2%nat 4 1                                       (* M_UNION *)
  (DUint 4 5 1 false                                            (* M_UINT u.MEAN_BEP_GMSK, 4 *)
  (DUint 4 5 1 false                                            (* M_UINT u.MEAN_BEP_8PSK, 4 *)
  DEnd)))).
(** csn1_ts_44_060.c:459-465; the structure: csn1_defs.h:1472. *)
Definition EGPRS_TimeslotLinkQualityMeasurements_t : descr :=
  (DNext false 1%nat 0 4 false                                  (* M_NEXT_EXIST Exist_BEP_MEASUREMENTS, 1 *)
  (DTArr (CFix 8) 4 64 8 BEP_MeasurementReport_t                (* M_TYPE_ARRAY BEP_MEASUREMENTS, BEP_MeasurementReport_t, 8 *)
  (DNext false 1%nat 68 4 false                                 (* M_NEXT_EXIST Exist_INTERFERENCE_MEASUREMENTS, 1 *)
  (DTArr (CFix 8) 72 64 8 InterferenceMeasurementReport_t       (* M_TYPE_ARRAY INTERFERENCE_MEASUREMENTS, InterferenceMeasurementReport_t, 8 *)
  DEnd)))).
(** csn1_ts_44_060.c:479-492; the structure: csn1_defs.h:1495. *)
Definition IU_Mode_Channel_Request_Desk_t : descr :=
  (DUint 5 0 1 false                                            (* M_UINT RB_ID, 5 *)
  (DUint 2 1 1 false                                            (* M_UINT RADIO_PRIORITY, 2 *)
  (DNext false 1%nat 4 4 false                                  (* M_NEXT_EXIST Exist_RLC_BLOCK_COUNT, 1 *)
  (DUint 8 8 1 false                                            (* M_UINT RLC_BLOCK_COUNT, 8 *)
  (DUint 1 12 4 false                                           (* M_UINT Exist_Iu_Mode_ChRequestDesk, 1 *)
  DEnd))))).
(** csn1_ts_44_060.c:495-502; the structure: csn1_defs.h:1502. *)
Definition IU_Mode_Channel_Request_Desk_RNTI_t : descr :=
  (DNext false 1%nat 0 4 false                                  (* M_NEXT_EXIST Exist_G_RNTI_Extension, 1 *)
  (DUint 4 4 1 false                                            (* M_UINT G_RNTI_Extension, 4 *)
  (DType 8 16 false IU_Mode_Channel_Request_Desk_t              (* M_TYPE IU_Mode_Channel_Request_Desk, IU_Mode_Channel_Request_Desk_t *)
  DEnd))).
(** csn1_ts_44_060.c:506-520; the structure: csn1_defs.h:1514. *)
Definition Ext_Channel_Request_desc_t : descr :=
  (DUint 7 0 1 false                                            (* M_UINT PFI, 7 *)
  (DUint 2 1 1 false                                            (* M_UINT RADIO_PRIORITY, 2 *)
  (DUint 1 2 1 false                                            (* M_UINT RLC_Mode, 1 *)
  (DNext false 1%nat 4 4 false                                  (* M_NEXT_EXIST Exist_LCC_PDU, 1 *)
  (DUint 1 8 1 false                                            (* M_UINT LCC_PDU, 1 *)
  (DUint 1 12 4 false                                           (* M_UINT Exist_Ext_Channel_Request_desc, 1 *)
  DEnd)))))).
(** csn1_ts_44_060.c:523-553; the structure: csn1_defs.h:1546. *)
Definition EGPRS_BEP_LinkQualityMeasurements_type2_t : descr :=
  (DNext false 1%nat 0 4 false                                  (* M_NEXT_EXIST Exist_GMSK_MEAN_BEP, 1 *)
  (DUint 5 4 1 false                                            (* M_UINT GMSK_MEAN_BEP, 5 *)
  (DUint 3 5 1 false                                            (* M_UINT GMSK_CV_BEP, 3 *)
  (DNext false 1%nat 8 4 false                                  (* M_NEXT_EXIST Exist_8PSK_MEAN_BEP, 1 *)
  (DUint 5 12 1 false                                           (* M_UINT p8PSK_MEAN_BEP, 5 *)
  (DUint 3 13 1 false                                           (* M_UINT p8PSK_CV_BEP, 3 *)
  (DNext false 1%nat 16 4 false                                 (* M_NEXT_EXIST Exist_QPSK_MEAN_BEP, 1 *)
  (DUint 5 20 1 false                                           (* M_UINT QPSK_MEAN_BEP, 5 *)
  (DUint 3 21 1 false                                           (* M_UINT QPSK_CV_BEP, 3 *)
  (DNext false 1%nat 24 4 false                                 (* M_NEXT_EXIST Exist_16QAM_NSR_MEAN_BEP, 1 *)
  (DUint 5 28 1 false                                           (* M_UINT p16QAM_NSR_MEAN_BEP, 5 *)
  (DUint 3 29 1 false                                           (* M_UINT p16QAM_NSR_CV_BEP, 3 *)
  (DNext false 1%nat 32 4 false                                 (* M_NEXT_EXIST Exist_32QAM_NSR_MEAN_BEP, 1 *)
  (DUint 5 36 1 false                                           (* M_UINT p32QAM_NSR_MEAN_BEP, 5 *)
  (DUint 3 37 1 false                                           (* M_UINT p32QAM_NSR_CV_BEP, 3 *)
  (DNext false 1%nat 40 4 false                                 (* M_NEXT_EXIST Exist_16QAM_HSR_MEAN_BEP, 1 *)
  (DUint 5 44 1 false                                           (* M_UINT p16QAM_HSR_MEAN_BEP, 5 *)
  (DUint 3 45 1 false                                           (* M_UINT p16QAM_HSR_CV_BEP, 3 *)
  (DNext false 1%nat 48 4 false                                 (* M_NEXT_EXIST Exist_32QAM_HSR_MEAN_BEP, 1 *)
  (DUint 5 52 1 false                                           (* M_UINT p32QAM_HSR_MEAN_BEP, 5 *)
  (DUint 3 53 1 false                                           (* M_UINT p32QAM_HSR_CV_BEP, 3 *)
  DEnd))))))))))))))))))))).
(** csn1_ts_44_060.c:556-560; the structure: csn1_defs.h:1554. *)
Definition BEP_MeasurementReport_type2_t : descr :=
  (DNext false 1%nat 0 4 false                                  (* M_NEXT_EXIST Exist, 1 *)
  (DUint 2 4 1 false                                            (* M_UINT REPORTED_MODULATION, 2 *)
  (DUint 4 5 1 false                                            (* M_UINT MEAN_BEP_TN, 4 *)
  DEnd))).
(** csn1_ts_44_060.c:563-566; the structure: csn1_defs.h:1560. *)
Definition InterferenceMeasurementReport_type2_t : descr :=
  (DNext false 1%nat 0 4 false                                  (* M_NEXT_EXIST Exist, 1 *)
  (DUint 4 4 1 false                                            (* M_UINT I_LEVEL, 4 *)
  DEnd)).
(** csn1_ts_44_060.c:568-574; the structure: csn1_defs.h:1570. *)
Definition EGPRS_TimeslotLinkQualityMeasurements_type2_t : descr :=
  (DNext false 1%nat 0 4 false                                  (* M_NEXT_EXIST Exist_BEP_MEASUREMENTS, 1 *)
  (DTArr (CFix 8) 4 64 8 BEP_MeasurementReport_type2_t          (* M_TYPE_ARRAY BEP_MEASUREMENTS, BEP_MeasurementReport_type2_t, 8 *)
  (DNext false 1%nat 68 4 false                                 (* M_NEXT_EXIST Exist_INTERFERENCE_MEASUREMENTS, 1 *)
  (DTArr (CFix 8) 72 64 8 InterferenceMeasurementReport_type2_t (* M_TYPE_ARRAY INTERFERENCE_MEASUREMENTS, InterferenceMeasurementReport_type2_t, 8 *)
  DEnd)))).
(** csn1_ts_44_060.c:577-582; the structure: csn1_defs.h:1578. *)
Definition PRR_AdditionsR12_t : descr :=
  (DNext false 1%nat 0 4 false                                  (* M_NEXT_EXIST Exist_Downlink_eTFI, 1 *)
  (DUint 3 4 1 false                                            (* M_UINT DOWNLINK_ETFI, 3 *)
  DEnd)).
(** csn1_ts_44_060.c:585-591; the structure: csn1_defs.h:1587. *)
Definition PRR_AdditionsR10_t : descr :=
  (DUint 1 0 1 false                                            (* M_UINT LOW_ACCESS_PRIORITY_SIGNALLING, 1 *)
  (DNext false 1%nat 4 4 true                                   (* M_NEXT_EXIST_OR_NULL Exist_AdditionsR12, 1 *)
  (DType 8 8 false PRR_AdditionsR12_t                           (* M_TYPE AdditionsR12, PRR_AdditionsR12_t *)
  DEnd))).
(** csn1_ts_44_060.c:594-606; the structure: csn1_defs.h:1602. *)
Definition PRR_AdditionsR7_t : descr :=
  (DUint 1 0 1 false                                            (* M_UINT EARLY_TBF_ESTABLISHMENT, 1 *)
  (DNext false 1%nat 4 4 false                                  (* M_NEXT_EXIST Exist_EGPRS_BEP_LinkQualityMeasurements_type2, 1 *)
  (DType 8 56 false EGPRS_BEP_LinkQualityMeasurements_type2_t   (* M_TYPE EGPRS_BEP_LinkQualityMeasurements_type2, EGPRS_BEP_LinkQualityMeasurements_type2_t *)
  (DNext false 1%nat 64 4 false                                 (* M_NEXT_EXIST Exist_EGPRS_TimeslotLinkQualityMeasurements_type2, 1 *)
  (DType 68 136 false EGPRS_TimeslotLinkQualityMeasurements_type2_t (* M_TYPE EGPRS_TimeslotLinkQualityMeasurements_type2, EGPRS_TimeslotLinkQualityMeasurements_type2_t *)
  (DNext false 1%nat 204 4 true                                 (* M_NEXT_EXIST_OR_NULL Exist_AdditionsR10, 1 *)
  (DType 208 16 false PRR_AdditionsR10_t                        (* M_TYPE AdditionsR10, PRR_AdditionsR10_t *)
  DEnd))))))).
(** csn1_ts_44_060.c:609-616; the structure: csn1_defs.h:1612. *)
Definition PRR_AdditionsR6_t : descr :=
  (DNext false 1%nat 0 4 false                                  (* M_NEXT_EXIST Exist_Ext_Channel_Request_desc, 1 *)
  (DType 4 16 false Ext_Channel_Request_desc_t                  (* M_TYPE Ext_Channel_Request_desc, Ext_Channel_Request_desc_t *)
  (DNext false 1%nat 20 1 true                                  (* M_NEXT_EXIST_OR_NULL Exist_AdditionsR7, 1 *)
  (DType 24 224 false PRR_AdditionsR7_t                         (* M_TYPE AdditionsR7, PRR_AdditionsR7_t *)
  DEnd)))).
(** csn1_ts_44_060.c:619-628; the structure: csn1_defs.h:1625. *)
Definition PRR_AdditionsR5_t : descr :=
  (DNext false 1%nat 0 1 false                                  (* M_NEXT_EXIST Exist_Iu_Mode_ChRequestDesk, 1 *)
  (DType 4 24 false IU_Mode_Channel_Request_Desk_RNTI_t         (* M_TYPE IU_Mode_Channel_Request_Desk_RNTI, IU_Mode_Channel_Request_Desk_RNTI_t *)
  (DNext false 1%nat 28 1 false                                 (* M_NEXT_EXIST Exist_HFN_LSB, 1 *)
  (DUint 7 29 1 false                                           (* M_UINT HFN_LSb, 7 *)
  (DNext false 1%nat 30 1 true                                  (* M_NEXT_EXIST_OR_NULL Exist_AdditionsR6, 1 *)
  (DType 32 248 false PRR_AdditionsR6_t                         (* M_TYPE AdditionsR6, PRR_AdditionsR6_t *)
  DEnd)))))).
(** csn1_ts_44_060.c:631-647; the structure: csn1_defs.h:1643. *)
Definition PRR_AdditionsR99_t : descr :=
  (DNext false 1%nat 0 4 false                                  (* M_NEXT_EXIST Exist_EGPRS_BEP_LinkQualityMeasurements, 1 *)
  (DType 4 16 false EGPRS_BEP_LinkQualityMeasurements_t         (* M_TYPE EGPRS_BEP_LinkQualityMeasurements, EGPRS_BEP_LinkQualityMeasurements_t *)
  (DNext false 1%nat 20 4 false                                 (* M_NEXT_EXIST Exist_EGPRS_TimeslotLinkQualityMeasurements, 1 *)
  (DType 24 136 false EGPRS_TimeslotLinkQualityMeasurements_t   (* M_TYPE EGPRS_TimeslotLinkQualityMeasurements, EGPRS_TimeslotLinkQualityMeasurements_t *)
  (DNext false 1%nat 160 4 false                                (* M_NEXT_EXIST Exist_PFI, 1 *)
  (DUint 7 164 1 false                                          (* M_UINT PFI, 7 *)
  (DUint 1 165 1 false                                          (* M_UINT MS_RAC_AdditionalInformationAvailable, 1 *)
  (DUint 1 166 1 false                                          (* M_UINT RetransmissionOfPRR, 1 *)
  (DNext false 1%nat 167 1 true                                 (* M_NEXT_EXIST_OR_NULL Exist_AdditionsR5, 1 *)
  (DType 168 280 false PRR_AdditionsR5_t                        (* M_TYPE AdditionsR5, PRR_AdditionsR5_t *)
  DEnd)))))))))).
(** csn1_ts_44_060.c:650-681; the structure: csn1_defs.h:1684. *)
Definition Packet_Resource_Request_t : descr :=
  (DUint 2 1 1 false                                            (* M_UINT PayloadType, 2 *)
  (DUint 5 2 1 false                                            (* M_UINT spare, 5 *)
  (DUint 1 3 1 false                                            (* M_UINT R, 1 *)
  (DUint 6 0 1 false                                            (* M_UINT MESSAGE_TYPE, 6 *)
  (DNext false 1%nat 4 1 false                                  (* M_NEXT_EXIST Exist_ACCESS_TYPE, 1 *)
  (DUint 2 5 1 false                                            (* M_UINT ACCESS_TYPE, 2 *)
  (DType 8 8 false PacketResourceRequestID_t                    (* M_TYPE ID, PacketResourceRequestID_t *)
  (DNext false 1%nat 16 1 false                                 (* M_NEXT_EXIST Exist_MS_Radio_Access_capability2, 1 *)
  (DType 17 760 false MS_Radio_Access_capability2_t             (* M_TYPE MS_Radio_Access_capability2, MS_Radio_Access_capability2_t *)
  (DType 778 6 false Channel_Request_Description_t              (* M_TYPE Channel_Request_Description, Channel_Request_Description_t *)
  (DNext false 1%nat 784 1 false                                (* M_NEXT_EXIST Exist_CHANGE_MARK, 1 *)
  (DUint 2 785 1 false                                          (* M_UINT CHANGE_MARK, 2 *)
  (DUint 6 786 1 false                                          (* M_UINT C_VALUE, 6 *)
  (DNext false 1%nat 787 1 false                                (* M_NEXT_EXIST Exist_SIGN_VAR, 1 *)
  (DUint 6 788 1 false                                          (* M_UINT SIGN_VAR, 6 *)
  (DTArr (CFix 8) 792 64 8 InterferenceMeasurementReport_t      (* M_TYPE_ARRAY I_LEVEL_TN, InterferenceMeasurementReport_t, 8 *)
  (DNext false 1%nat 856 1 true                                 (* M_NEXT_EXIST_OR_NULL Exist_AdditionsR99, 1 *)
  (DType 860 448 false PRR_AdditionsR99_t                       (* M_TYPE AdditionsR99, PRR_AdditionsR99_t *)
  (DPad                                                         (* M_PADDING_BITS *)
  DEnd))))))))))))))))))).
(** csn1_ts_44_060.c:137-165; the structure: csn1_defs.h:145. *)
Definition Channel_Quality_Report_t : descr :=
  (DUint 6 0 1 false                                            (* M_UINT C_VALUE, 6 *)
  (DUint 3 1 1 false                                            (* M_UINT RXQUAL, 3 *)
  (DUint 6 2 1 false                                            (* M_UINT SIGN_VAR, 6 *)
  (DNext false 1%nat 3 1 false                                  (* M_NEXT_EXIST Slot[0].Exist, 1 *)
  (DUint 4 4 1 false                                            (* M_UINT Slot[0].I_LEVEL_TN, 4 *)
  (DNext false 1%nat 5 1 false                                  (* M_NEXT_EXIST Slot[1].Exist, 1 *)
  (DUint 4 6 1 false                                            (* M_UINT Slot[1].I_LEVEL_TN, 4 *)
  (DNext false 1%nat 7 1 false                                  (* M_NEXT_EXIST Slot[2].Exist, 1 *)
  (DUint 4 8 1 false                                            (* M_UINT Slot[2].I_LEVEL_TN, 4 *)
  (DNext false 1%nat 9 1 false                                  (* M_NEXT_EXIST Slot[3].Exist, 1 *)
  (DUint 4 10 1 false                                           (* M_UINT Slot[3].I_LEVEL_TN, 4 *)
  (DNext false 1%nat 11 1 false                                 (* M_NEXT_EXIST Slot[4].Exist, 1 *)
  (DUint 4 12 1 false                                           (* M_UINT Slot[4].I_LEVEL_TN, 4 *)
  (DNext false 1%nat 13 1 false                                 (* M_NEXT_EXIST Slot[5].Exist, 1 *)
  (DUint 4 14 1 false                                           (* M_UINT Slot[5].I_LEVEL_TN, 4 *)
  (DNext false 1%nat 15 1 false                                 (* M_NEXT_EXIST Slot[6].Exist, 1 *)
  (DUint 4 16 1 false                                           (* M_UINT Slot[6].I_LEVEL_TN, 4 *)
  (DNext false 1%nat 17 1 false                                 (* M_NEXT_EXIST Slot[7].Exist, 1 *)
  (DUint 4 18 1 false                                           (* M_UINT Slot[7].I_LEVEL_TN, 4 *)
  DEnd))))))))))))))))))).
(** csn1_ts_44_060.c:779-782; the structure: csn1_defs.h:1871. *)
Definition PD_AckNack_AdditionsR99_t : descr :=
  (DNext false 1%nat 0 4 false                                  (* M_NEXT_EXIST Exist_PFI, 1 *)
  (DUint 7 4 1 false                                            (* M_UINT PFI, 7 *)
  DEnd)).
(** csn1_ts_44_060.c:785-801; the structure: csn1_defs.h:1890. *)
Definition Packet_Downlink_Ack_Nack_t : descr :=
  (DUint 2 1 1 false                                            (* M_UINT PayloadType, 2 *)
  (DUint 5 2 1 false                                            (* M_UINT spare, 5 *)
  (DBit 3 1 false                                               (* M_BIT R *)
  (DUint 6 0 1 false                                            (* M_UINT MESSAGE_TYPE, 6 *)
  (DUint 5 4 1 false                                            (* M_UINT DOWNLINK_TFI, 5 *)
  (DType 5 10 false Ack_Nack_Description_t                      (* M_TYPE Ack_Nack_Description, Ack_Nack_Description_t *)
  (DNext false 1%nat 15 1 false                                 (* M_NEXT_EXIST Exist_Channel_Request_Description, 1 *)
  (DType 16 6 false Channel_Request_Description_t               (* M_TYPE Channel_Request_Description, Channel_Request_Description_t *)
  (DType 22 19 false Channel_Quality_Report_t                   (* M_TYPE Channel_Quality_Report, Channel_Quality_Report_t *)
  (DNext false 1%nat 44 4 true                                  (* M_NEXT_EXIST_OR_NULL Exist_AdditionsR99, 1 *)
  (DType 48 8 false PD_AckNack_AdditionsR99_t                   (* M_TYPE AdditionsR99, PD_AckNack_AdditionsR99_t *)
  (DPad                                                         (* M_PADDING_BITS *)
  DEnd)))))))))))).
(** csn1_ts_44_060.c:332-335; the structure: csn1_defs.h:1085. *)
Definition Packet_Control_Acknowledgement_AdditionsR6_t : descr :=
  (DNext false 1%nat 0 1 false                                  (* M_NEXT_EXIST Exist_CTRL_ACK_Extension, 1 *)
  (DUint 9 2 2 false                                            (* M_UINT CTRL_ACK_Extension, 9 *)
  DEnd)).
(** csn1_ts_44_060.c:338-346; the structure: csn1_defs.h:1095. *)
Definition Packet_Control_Acknowledgement_AdditionsR5_t : descr :=
  (DNext false 1%nat 0 1 false                                  (* M_NEXT_EXIST Exist_TN_RRBP, 1 *)
  (DUint 3 1 1 false                                            (* M_UINT TN_RRBP, 3 *)
  (DNext false 1%nat 2 1 false                                  (* M_NEXT_EXIST Exist_G_RNTI_Extension, 1 *)
  (DUint 4 3 1 false                                            (* M_UINT G_RNTI_Extension, 4 *)
  (DNext false 1%nat 4 4 true                                   (* M_NEXT_EXIST_OR_NULL Exist_AdditionsR6, 1 *)
  (DType 8 4 false Packet_Control_Acknowledgement_AdditionsR6_t (* M_TYPE AdditionsR6, Packet_Control_Acknowledgement_AdditionsR6_t *)
  DEnd)))))).
(** csn1_ts_44_060.c:349-360; the structure: csn1_defs.h:1108. *)
Definition Packet_Control_Acknowledgement_t : descr :=
  (DUint 2 1 1 false                                            (* M_UINT PayloadType, 2 *)
  (DUint 5 2 1 false                                            (* M_UINT spare, 5 *)
  (DBit 3 1 false                                               (* M_BIT R *)
  (DUint 6 0 1 false                                            (* M_UINT MESSAGE_TYPE, 6 *)
  (DUint 32 4 4 false                                           (* M_UINT TLLI, 32 *)
  (DUint 2 8 1 false                                            (* M_UINT CTRL_ACK, 2 *)
  (DNext false 1%nat 12 4 true                                  (* M_NEXT_EXIST_OR_NULL Exist_AdditionsR5, 1 *)
  (DType 16 12 false Packet_Control_Acknowledgement_AdditionsR5_t (* M_TYPE AdditionsR5, Packet_Control_Acknowledgement_AdditionsR5_t *)
  (DPad                                                         (* M_PADDING_BITS *)
  DEnd))))))))).
(** csn1_ts_44_060.c:375-384; the structure: csn1_defs.h:1138. *)
Definition Packet_Uplink_Dummy_Control_Block_t : descr :=
  (DUint 2 1 1 false                                            (* M_UINT PayloadType, 2 *)
  (DUint 5 2 1 false                                            (* M_UINT spare, 5 *)
  (DBit 3 1 false                                               (* M_BIT R *)
  (DUint 6 0 1 false                                            (* M_UINT MESSAGE_TYPE, 6 *)
  (DUint 32 4 4 false                                           (* M_UINT TLLI, 32 *)
  (DPad                                                         (* M_PADDING_BITS *)
  DEnd)))))).
(** csn1_ts_44_060.c:869-873; the structure: csn1_defs.h:1806. *)
Definition UTRAN_CSG_Target_Cell_t : descr :=
  (DUint 28 0 4 false                                           (* M_UINT UTRAN_CI, 28 *)
  (DNext false 1%nat 4 1 false                                  (* M_NEXT_EXIST Exist_PLMN_ID, 1 *)
  (DType 5 6 false PLMN_t                                       (* M_TYPE PLMN_ID, PLMN_t *)
  DEnd))).
(** csn1_ts_44_060.c:876-881; the structure: csn1_defs.h:1814. *)
Definition EUTRAN_CSG_Target_Cell_t : descr :=
  (DUint 28 0 4 false                                           (* M_UINT EUTRAN_CI, 28 *)
  (DUint 16 4 2 false                                           (* M_UINT Tracking_Area_Code, 16 *)
  (DNext false 1%nat 6 1 false                                  (* M_NEXT_EXIST Exist_PLMN_ID, 1 *)
  (DType 7 6 false PLMN_t                                       (* M_TYPE PLMN_ID, PLMN_t *)
  DEnd)))).
(** csn1_ts_44_060.c:884-889; the structure: csn1_defs.h:1822. *)
Definition PCCF_AdditionsR9_t : descr :=
  (DNext false 1%nat 0 1 false                                  (* M_NEXT_EXIST Exist_UTRAN_CSG_Target_Cell, 1 *)
  (DType 4 12 false UTRAN_CSG_Target_Cell_t                     (* M_TYPE UTRAN_CSG_Target_Cell, UTRAN_CSG_Target_Cell_t *)
  (DNext false 1%nat 16 1 false                                 (* M_NEXT_EXIST Exist_EUTRAN_CSG_Target_Cell, 1 *)
  (DType 20 16 false EUTRAN_CSG_Target_Cell_t                   (* M_TYPE EUTRAN_CSG_Target_Cell, EUTRAN_CSG_Target_Cell_t *)
  DEnd)))).
(** csn1_ts_44_060.c:892-897; the structure: csn1_defs.h:1830. *)
Definition PCCF_AdditionsR8_t : descr :=
  (DNext false 1%nat 0 1 false                                  (* M_NEXT_EXIST Exist_EUTRAN_Target_Cell, 1 *)
  (DType 2 6 false EUTRAN_Target_Cell_t                         (* M_TYPE EUTRAN_Target_Cell, EUTRAN_Target_Cell_t *)
  (DNext false 1%nat 8 1 true                                   (* M_NEXT_EXIST_OR_NULL Exist_AdditionsR9, 1 *)
  (DType 12 36 false PCCF_AdditionsR9_t                         (* M_TYPE AdditionsR9, PCCF_AdditionsR9_t *)
  DEnd)))).
(** csn1_ts_44_060.c:900-905; the structure: csn1_defs.h:1838. *)
Definition PCCF_AdditionsR5_t : descr :=
  (DNext false 1%nat 0 1 false                                  (* M_NEXT_EXIST Exist_G_RNTI_extension, 1 *)
  (DUint 4 1 1 false                                            (* M_UINT G_RNTI_extension, 4 *)
  (DNext false 1%nat 2 1 true                                   (* M_NEXT_EXIST_OR_NULL Exist_AdditionsR8, 1 *)
  (DType 4 48 false PCCF_AdditionsR8_t                          (* M_TYPE AdditionsR8, PCCF_AdditionsR8_t *)
  DEnd)))).
(** csn1_ts_44_060.c:908-915; the structure: csn1_defs.h:1848. *)
Definition PCCF_AdditionsR99_t : descr :=
  (DNext false 1%nat 0 1 false                                  (* M_NEXT_EXIST Exist_FDD_Description, 1 *)
  (DType 2 8 false FDD_Target_Cell_t                            (* M_TYPE FDD_Target_Cell, FDD_Target_Cell_t *)
  (DNext false 1%nat 10 1 false                                 (* M_NEXT_EXIST Exist_TDD_Description, 1 *)
  (DType 12 10 false TDD_Target_Cell_t                          (* M_TYPE TDD_Target_Cell, TDD_Target_Cell_t *)
  (DNext false 1%nat 22 1 true                                  (* M_NEXT_EXIST_OR_NULL Exist_AdditionsR5, 1 *)
  (DType 24 52 false PCCF_AdditionsR5_t                         (* M_TYPE AdditionsR5, PCCF_AdditionsR5_t *)
  DEnd)))))).
(** csn1_ts_44_060.c:919-936; the structure: csn1_defs.h:1864. *)
Definition Packet_Cell_Change_Failure_t : descr :=
  (DUint 2 1 1 false                                            (* M_UINT PayloadType, 2 *)
  (DUint 5 2 1 false                                            (* M_UINT spare, 5 *)
  (DUint 1 3 1 false                                            (* M_UINT R, 1 *)
  (DUint 6 0 1 false                                            (* M_UINT MESSAGE_TYPE, 6 *)
  (DUint 32 4 4 false                                           (* M_UINT TLLI, 32 *)
  (DUint 10 8 2 false                                           (* M_UINT ARFCN, 10 *)
  (DUint 6 10 1 false                                           (* M_UINT BSIC, 6 *)
  (DUint 4 11 1 false                                           (* M_UINT CAUSE, 4 *)
  (DNext false 1%nat 12 4 true                                  (* M_NEXT_EXIST_OR_NULL Exist_AdditionsR99, 1 *)
  (DType 16 76 false PCCF_AdditionsR99_t                        (* M_TYPE AdditionsR99, PCCF_AdditionsR99_t *)
  (DPad                                                         (* M_PADDING_BITS *)
  DEnd))))))))))).
(** csn1_ts_44_060.c:3129-3132; the structure: csn1_defs.h:3378. *)
Definition Serving_Cell_Data_t : descr :=
  (DUint 6 0 1 false                                            (* M_UINT RXLEV_SERVING_CELL, 6 *)
  (DFixed 1 0                                                   (* M_FIXED 1, 0 *)
  DEnd)).
(** csn1_ts_44_060.c:3135-3141; the structure: csn1_defs.h:3386. *)
Definition NC_Measurements_t : descr :=
  (DUint 6 0 1 false                                            (* M_UINT FREQUENCY_N, 6 *)
  (DNext false 1%nat 1 1 false                                  (* M_NEXT_EXIST Exist_BSIC_N, 1 *)
  (DUint 6 2 1 false                                            (* M_UINT BSIC_N, 6 *)
  (DUint 6 3 1 false                                            (* M_UINT RXLEV_N, 6 *)
  DEnd)))).
(** csn1_ts_44_060.c:3157-3162; the structure: csn1_defs.h:3410. *)
Definition NC_Measurement_Report_t : descr :=
  (DUint 1 0 1 false                                            (* M_UINT NC_MODE, 1 *)
  (DType 1 1 false Serving_Cell_Data_t                          (* M_TYPE Serving_Cell_Data, Serving_Cell_Data_t *)
  (DUint 3 2 1 false                                            (* M_UINT NUMBER_OF_NC_MEASUREMENTS, 3 *)
  (DTArr (CVar 2) 3 24 4 NC_Measurements_t                      (* M_VAR_TARRAY NC_Measurements, NC_Measurements_t, NUMBER_OF_NC_MEASUREMENTS *)
  DEnd)))).
(** csn1_ts_44_060.c:3182-3213; the structure: csn1_defs.h:3426. *)
Definition EXT_Measurement_Report_t : descr :=
  (DUint 2 0 1 false                                            (* M_UINT EXT_REPORTING_TYPE, 2 *)
  (DNext false 1%nat 1 1 false                                  (* M_NEXT_EXIST Exist_I_LEVEL, 1 *)
  (DNext false 1%nat 2 1 false                                  (* M_NEXT_EXIST Slot[0].Exist, 1 *)
  (DUint 6 3 1 false                                            (* M_UINT Slot[0].I_LEVEL, 6 *)
  (DNext false 1%nat 4 1 false                                  (* M_NEXT_EXIST Slot[1].Exist, 1 *)
  (DUint 6 5 1 false                                            (* M_UINT Slot[1].I_LEVEL, 6 *)
  (DNext false 1%nat 6 1 false                                  (* M_NEXT_EXIST Slot[2].Exist, 1 *)
  (DUint 6 7 1 false                                            (* M_UINT Slot[2].I_LEVEL, 6 *)
  (DNext false 1%nat 8 1 false                                  (* M_NEXT_EXIST Slot[3].Exist, 1 *)
  (DUint 6 9 1 false                                            (* M_UINT Slot[3].I_LEVEL, 6 *)
  (DNext false 1%nat 10 1 false                                 (* M_NEXT_EXIST Slot[4].Exist, 1 *)
  (DUint 6 11 1 false                                           (* M_UINT Slot[4].I_LEVEL, 6 *)
  (DNext false 1%nat 12 1 false                                 (* M_NEXT_EXIST Slot[5].Exist, 1 *)
  (DUint 6 13 1 false                                           (* M_UINT Slot[5].I_LEVEL, 6 *)
  (DNext false 1%nat 14 1 false                                 (* M_NEXT_EXIST Slot[6].Exist, 1 *)
  (DUint 6 15 1 false                                           (* M_UINT Slot[6].I_LEVEL, 6 *)
  (DNext false 1%nat 16 1 false                                 (* M_NEXT_EXIST Slot[7].Exist, 1 *)
  (DUint 6 17 1 false                                           (* M_UINT Slot[7].I_LEVEL, 6 *)
  (DUint 5 18 1 false                                           (* M_UINT NUMBER_OF_EXT_MEASUREMENTS, 5 *)
  (DTArr (CVar 18) 19 36 4 NC_Measurements_t                    (* M_VAR_TARRAY EXT_Measurements, NC_Measurements_t, NUMBER_OF_EXT_MEASUREMENTS *)
  DEnd)))))))))))))))))))).
(** csn1_ts_44_060.c:3123-3126; the structure: csn1_defs.h:3373. *)
Definition BA_USED_t : descr :=
  (DUint 1 0 1 false                                            (* M_UINT BA_USED, 1 *)
  (DUint 1 1 1 false                                            (* M_UINT BA_USED_3G, 1 *)
  DEnd)).
(** csn1_ts_44_060.c:3216-3219; the structure: csn1_defs.h:3432. *)
Definition Measurements_3G_t : descr :=
  (DUint 7 0 1 false                                            (* M_UINT CELL_LIST_INDEX_3G, 7 *)
  (DUint 6 1 1 false                                            (* M_UINT REPORTING_QUANTITY, 6 *)
  DEnd)).
(** csn1_ts_44_060.c:3222-3226; the structure: csn1_defs.h:3468. *)
Definition EUTRAN_Measurement_Report_Body_t : descr :=
  (DUint 3 0 1 false                                            (* M_UINT EUTRAN_FREQUENCY_INDEX, 3 *)
  (DUint 9 2 2 false                                            (* M_UINT CELL_IDENTITY, 9 *)
  (DUint 6 4 1 false                                            (* M_UINT REPORTING_QUANTITY, 6 *)
  DEnd))).
(** csn1_ts_44_060.c:3229-3232; the structure: csn1_defs.h:3474. *)
Definition EUTRAN_Measurement_Report_t : descr :=
  (DUintOff 2 0 1 1                                             (* M_UINT_OFFSET N_EUTRAN, 2, 1 *)
  (DTArr (CVar 0) 2 24 6 EUTRAN_Measurement_Report_Body_t       (* M_VAR_TARRAY Report, EUTRAN_Measurement_Report_Body_t, N_EUTRAN *)
  DEnd)).
(** csn1_ts_44_060.c:3235-3242; the structure: csn1_defs.h:3442. *)
Definition UTRAN_CSG_Measurement_Report_t : descr :=
  (DUint 28 0 4 false                                           (* M_UINT UTRAN_CGI, 28 *)
  (DNext false 1%nat 4 1 false                                  (* M_NEXT_EXIST Exist_PLMN_ID, 1 *)
  (DType 5 6 false PLMN_t                                       (* M_TYPE Plmn_ID, PLMN_t *)
  (DUint 27 12 4 false                                          (* M_UINT CSG_ID, 27 *)
  (DUint 1 16 4 false                                           (* M_UINT Access_Mode, 1 *)
  (DUint 6 20 1 false                                           (* M_UINT REPORTING_QUANTITY, 6 *)
  DEnd)))))).
(** csn1_ts_44_060.c:3245-3253; the structure: csn1_defs.h:3453. *)
Definition EUTRAN_CSG_Measurement_Report_t : descr :=
  (DUint 28 0 4 false                                           (* M_UINT EUTRAN_CGI, 28 *)
  (DUint 16 4 2 false                                           (* M_UINT Tracking_Area_Code, 16 *)
  (DNext false 1%nat 6 1 false                                  (* M_NEXT_EXIST Exist_PLMN_ID, 1 *)
  (DType 7 6 false PLMN_t                                       (* M_TYPE Plmn_ID, PLMN_t *)
  (DUint 27 16 4 false                                          (* M_UINT CSG_ID, 27 *)
  (DUint 1 20 4 false                                           (* M_UINT Access_Mode, 1 *)
  (DUint 6 24 1 false                                           (* M_UINT REPORTING_QUANTITY, 6 *)
  DEnd))))))).
(** csn1_ts_44_060.c:3256-3261; the structure: csn1_defs.h:3461. *)
Definition PMR_AdditionsR9_t : descr :=
  (DNext false 1%nat 0 4 false                                  (* M_NEXT_EXIST Exist_UTRAN_CSG_Meas_Rpt, 1 *)
  (DType 4 24 false UTRAN_CSG_Measurement_Report_t              (* M_TYPE UTRAN_CSG_Meas_Rpt, UTRAN_CSG_Measurement_Report_t *)
  (DNext false 1%nat 28 4 false                                 (* M_NEXT_EXIST Exist_EUTRAN_CSG_Meas_Rpt, 1 *)
  (DType 32 28 false EUTRAN_CSG_Measurement_Report_t            (* M_TYPE EUTRAN_CSG_Meas_Rpt, EUTRAN_CSG_Measurement_Report_t *)
  DEnd)))).
(** csn1_ts_44_060.c:3264-3269; the structure: csn1_defs.h:3482. *)
Definition PMR_AdditionsR8_t : descr :=
  (DNext false 1%nat 0 4 false                                  (* M_NEXT_EXIST Exist_EUTRAN_Meas_Rpt, 1 *)
  (DType 4 26 false EUTRAN_Measurement_Report_t                 (* M_TYPE EUTRAN_Meas_Rpt, EUTRAN_Measurement_Report_t *)
  (DNext false 1%nat 32 4 true                                  (* M_NEXT_EXIST_OR_NULL Exist_AdditionsR9, 1 *)
  (DType 36 60 false PMR_AdditionsR9_t                          (* M_TYPE AdditionsR9, PMR_AdditionsR9_t *)
  DEnd)))).
(** csn1_ts_44_060.c:3272-3277; the structure: csn1_defs.h:3490. *)
Definition PMR_AdditionsR5_t : descr :=
  (DNext false 3%nat 0 4 false                                  (* M_NEXT_EXIST Exist_GRNTI, 3 *)
  (DUint 4 4 1 false                                            (* M_UINT GRNTI, 4 *)
  (DNext false 1%nat 8 4 true                                   (* M_NEXT_EXIST_OR_NULL Exist_AdditionsR8, 1 *)
  (DType 12 96 false PMR_AdditionsR8_t                          (* M_TYPE AdditionsR8, PMR_AdditionsR8_t *)
  DEnd)))).
(** csn1_ts_44_060.c:3280-3293; the structure: csn1_defs.h:3513. *)
Definition PMR_AdditionsR99_t : descr :=
  (DNext false 4%nat 0 4 false                                  (* M_NEXT_EXIST Exist_Info3G, 4 *)
  (DUnion false 2%nat 4 1                                       (* M_UNION *)
  (DType 5 2 false BA_USED_t                                    (* M_TYPE u.BA_USED, BA_USED_t *)
  (DUint 2 5 1 false                                            (* M_UINT u.PSI3_CHANGE_MARK, 2 *)
  (DUint 1 7 1 false                                            (* M_UINT PMO_USED, 1 *)
  (DNext false 2%nat 8 4 false                                  (* M_NEXT_EXIST Exist_MeasurementReport3G, 2 *)
  (DUintOff 3 12 1 1                                            (* M_UINT_OFFSET N_3G, 3, 1 *)
  (DTArr (CVarOff 12) 13 12 2 Measurements_3G_t                 (* M_VAR_TARRAY_OFFSET Measurements_3G, Measurements_3G_t, N_3G *)
  (DNext false 1%nat 28 4 true                                  (* M_NEXT_EXIST_OR_NULL Exist_AdditionsR5, 1 *)
  (DType 32 108 false PMR_AdditionsR5_t                         (* M_TYPE AdditionsR5, PMR_AdditionsR5_t *)
  DEnd)))))))))).
(** csn1_ts_44_060.c:3296-3317; the structure: csn1_defs.h:3535. *)
Definition Packet_Measurement_Report_t : descr :=
  (DUint 2 1 1 false                                            (* M_UINT PayloadType, 2 *)
  (DUint 5 2 1 false                                            (* M_UINT spare, 5 *)
  (DUint 1 3 1 false                                            (* M_UINT R, 1 *)
  (DUint 6 0 1 false                                            (* M_UINT MESSAGE_TYPE, 6 *)
  (DUint 32 4 4 false                                           (* M_UINT TLLI, 32 *)
  (DNext false 1%nat 8 1 false                                  (* M_NEXT_EXIST Exist_PSI5_CHANGE_MARK, 1 *)
  (DUint 2 9 1 false                                            (* M_UINT PSI5_CHANGE_MARK, 2 *)
  (DUnion false 2%nat 10 1                                      (* M_UNION *)
  (DType 11 27 false NC_Measurement_Report_t                    (* M_TYPE u.NC_Measurement_Report, NC_Measurement_Report_t *)
  (DType 11 55 false EXT_Measurement_Report_t                   (* M_TYPE u.EXT_Measurement_Report, EXT_Measurement_Report_t *)
  (DNext false 1%nat 68 4 true                                  (* M_NEXT_EXIST_OR_NULL Exist_AdditionsR99, 1 *)
  (DType 72 140 false PMR_AdditionsR99_t                        (* M_TYPE AdditionsR99, PMR_AdditionsR99_t *)
  (DPad                                                         (* M_PADDING_BITS *)
  DEnd))))))))))))).
(** csn1_ts_44_060.c:685-699; the structure: csn1_defs.h:1699. *)
Definition Packet_Mobile_TBF_Status_t : descr :=
  (DUint 2 1 1 false                                            (* M_UINT PayloadType, 2 *)
  (DUint 5 2 1 false                                            (* M_UINT spare, 5 *)
  (DUint 1 3 1 false                                            (* M_UINT R, 1 *)
  (DUint 6 0 1 false                                            (* M_UINT MESSAGE_TYPE, 6 *)
  (DType 4 2 false Global_TFI_t                                 (* M_TYPE Global_TFI, Global_TFI_t *)
  (DUint 3 6 1 false                                            (* M_UINT TBF_CAUSE, 3 *)
  (DNext false 1%nat 7 1 false                                  (* M_NEXT_EXIST Exist_STATUS_MESSAGE_TYPE, 1 *)
  (DUint 6 8 1 false                                            (* M_UINT STATUS_MESSAGE_TYPE, 6 *)
  (DPad                                                         (* M_PADDING_BITS *)
  DEnd))))))))).
(** csn1_ts_44_060.c:703-709; the structure: csn1_defs.h:1707. *)
Definition PSI_Message_t : descr :=
  (DUint 6 0 1 false                                            (* M_UINT PSI_MESSAGE_TYPE, 6 *)
  (DUint 2 1 1 false                                            (* M_UINT PSIX_CHANGE_MARK, 2 *)
  (DNext false 2%nat 2 1 false                                  (* M_NEXT_EXIST Exist_PSIX_COUNT_and_Instance_Bitmap, 2 *)
  (DFixed 4 0                                                   (* M_FIXED 4, 0 *)
  (DFixed 1 0                                                   (* M_FIXED 1, 0 *)
  DEnd))))).
(** csn1_ts_44_060.c:712-716; the structure: csn1_defs.h:1715. *)
Definition PSI_Message_List_t : descr :=
  (DRecTArr false 0 1 30 3 10 PSI_Message_t                     (* M_REC_TARRAY PSI_Message, PSI_Message_t, Count_PSI_Message *)
  (DFixed 1 0                                                   (* M_FIXED 1, 0x00 *)
  (DUint 1 31 1 false                                           (* M_UINT ADDITIONAL_MSG_TYPE, 1 *)
  DEnd))).
(** csn1_ts_44_060.c:719-722; the structure: csn1_defs.h:1720. *)
Definition Unknown_PSI_Message_List_t : descr :=
  (DFixed 1 0                                                   (* M_FIXED 1, 0x00 *)
  (DUint 1 0 1 false                                            (* M_UINT ADDITIONAL_MSG_TYPE, 1 *)
  DEnd)).
(** csn1_ts_44_060.c:725-738; the structure: csn1_defs.h:1734. *)
Definition Packet_PSI_Status_t : descr :=
  (DUint 2 1 1 false                                            (* M_UINT PayloadType, 2 *)
  (DUint 5 2 1 false                                            (* M_UINT spare, 5 *)
  (DUint 1 3 1 false                                            (* M_UINT R, 1 *)
  (DUint 6 0 1 false                                            (* M_UINT MESSAGE_TYPE, 6 *)
  (DType 4 2 false Global_TFI_t                                 (* M_TYPE Global_TFI, Global_TFI_t *)
  (DUint 3 6 1 false                                            (* M_UINT PBCCH_CHANGE_MARK, 3 *)
  (DType 7 32 false PSI_Message_List_t                          (* M_TYPE PSI_Message_List, PSI_Message_List_t *)
  (DType 39 1 false Unknown_PSI_Message_List_t                  (* M_TYPE Unknown_PSI_Message_List, Unknown_PSI_Message_List_t *)
  (DPad                                                         (* M_PADDING_BITS *)
  DEnd))))))))).
(** csn1_ts_44_060.c:806-810; the structure: csn1_defs.h:1898. *)
Definition EGPRS_ChannelQualityReport_t : descr :=
  (DType 0 16 false EGPRS_BEP_LinkQualityMeasurements_t         (* M_TYPE EGPRS_BEP_LinkQualityMeasurements, EGPRS_BEP_LinkQualityMeasurements_t *)
  (DUint 6 16 1 false                                           (* M_UINT C_VALUE, 6 *)
  (DType 20 136 false EGPRS_TimeslotLinkQualityMeasurements_t   (* M_TYPE EGPRS_TimeslotLinkQualityMeasurements, EGPRS_TimeslotLinkQualityMeasurements_t *)
  DEnd))).
(** csn1_ts_44_060.c:813-839; the structure: csn1_defs.h:1923. *)
Definition EGPRS_PD_AckNack_t : descr :=
  (DUint 2 1 1 false                                            (* M_UINT PayloadType, 2 *)
  (DUint 5 2 1 false                                            (* M_UINT spare, 5 *)
  (DBit 3 1 false                                               (* M_BIT R *)
  (DUint 6 0 1 false                                            (* M_UINT MESSAGE_TYPE, 6 *)
  (DUint 5 4 1 false                                            (* M_UINT DOWNLINK_TFI, 5 *)
  (DUint 1 5 1 false                                            (* M_UINT MS_OUT_OF_MEMORY, 1 *)
  (DNext false 1%nat 8 4 false                                  (* M_NEXT_EXIST Exist_EGPRS_ChannelQualityReport, 1 *)
  (DType 12 156 false EGPRS_ChannelQualityReport_t              (* M_TYPE EGPRS_ChannelQualityReport, EGPRS_ChannelQualityReport_t *)
  (DNext false 1%nat 168 4 false                                (* M_NEXT_EXIST Exist_ChannelRequestDescription, 1 *)
  (DType 172 6 false Channel_Request_Description_t              (* M_TYPE ChannelRequestDescription, Channel_Request_Description_t *)
  (DNext false 1%nat 180 4 false                                (* M_NEXT_EXIST Exist_PFI, 1 *)
  (DUint 7 184 1 false                                          (* M_UINT PFI, 7 *)
  (DNext false 1%nat 188 4 false                                (* M_NEXT_EXIST Exist_ExtensionBits, 1 *)
  (DType 192 9 false Extension_Bits_t                           (* M_TYPE ExtensionBits, Extension_Bits_t *)
  (DType 204 80 false EGPRS_AckNack_t                           (* M_TYPE EGPRS_AckNack, EGPRS_AckNack_t *)
  (DPad                                                         (* M_PADDING_BITS *)
  DEnd)))))))))))))))).
(** csn1_ts_44_060.c:3893-3898; the structure: csn1_defs.h:5039. *)
Definition Packet_Pause_t : descr :=
  (DUint 2 0 1 false                                            (* M_UINT MESSAGE_TYPE, 2 *)
  (DUint 32 4 4 false                                           (* M_UINT TLLI, 32 *)
  (DBitmap 48 8 6                                               (* M_BITMAP RAI, 48 *)
  (DPad                                                         (* M_PADDING_BITS *)
  DEnd)))).
(** csn1_ts_44_060.c:3144-3148; the structure: csn1_defs.h:3393. *)
Definition RepeatedInvalid_BSIC_Info_t : descr :=
  (DUint 5 0 1 false                                            (* M_UINT BCCH_FREQ_N, 5 *)
  (DUint 6 1 1 false                                            (* M_UINT BSIC_N, 6 *)
  (DUint 6 2 1 false                                            (* M_UINT RXLEV_N, 6 *)
  DEnd))).
(** csn1_ts_44_060.c:3151-3154; the structure: csn1_defs.h:3399. *)
Definition REPORTING_QUANTITY_Instance_t : descr :=
  (DNext false 1%nat 0 1 false                                  (* M_NEXT_EXIST Exist_REPORTING_QUANTITY, 1 *)
  (DUint 6 1 1 false                                            (* M_UINT REPORTING_QUANTITY, 6 *)
  DEnd)).
(** csn1_ts_44_060.c:3165-3178; the structure: csn1_defs.h:3565. *)
Definition ENH_NC_Measurement_Report_t : descr :=
  (DUint 1 0 1 false                                            (* M_UINT NC_MODE, 1 *)
  (DUnion false 2%nat 1 1                                       (* M_UNION *)
  (DType 2 2 false BA_USED_t                                    (* M_TYPE u.BA_USED, BA_USED_t *)
  (DUint 2 2 1 false                                            (* M_UINT u.PSI3_CHANGE_MARK, 2 *)
  (DUint 1 4 1 false                                            (* M_UINT PMO_USED, 1 *)
  (DUint 1 5 1 false                                            (* M_UINT BSIC_Seen, 1 *)
  (DUint 1 6 1 false                                            (* M_UINT SCALE, 1 *)
  (DNext false 1%nat 7 1 false                                  (* M_NEXT_EXIST Exist_Serving_Cell_Data, 1 *)
  (DType 8 1 false Serving_Cell_Data_t                          (* M_TYPE Serving_Cell_Data, Serving_Cell_Data_t *)
  (DRecTArr false 9 10 48 3 16 RepeatedInvalid_BSIC_Info_t      (* M_REC_TARRAY RepeatedInvalid_BSIC_Info, RepeatedInvalid_BSIC_Info_t, Count_RepeatedInvalid_BSIC_Info *)
  (DNext false 1%nat 58 1 false                                 (* M_NEXT_EXIST Exist_ReportBitmap, 1 *)
  (DTArr (CVar 59) 60 192 2 REPORTING_QUANTITY_Instance_t       (* M_VAR_TARRAY REPORTING_QUANTITY_Instances, REPORTING_QUANTITY_Instance_t, Count_REPORTING_QUANTITY_Instances *)
  DEnd)))))))))))).
(** csn1_ts_44_060.c:3328-3331; the structure: csn1_defs.h:3579. *)
Definition Bitmap_Report_Quantity_t : descr :=
  (DNext false 1%nat 0 4 false                                  (* M_NEXT_EXIST Exist_REPORTING_QUANTITY, 1 *)
  (DUint 6 4 1 false                                            (* M_UINT REPORTING_QUANTITY, 6 *)
  DEnd)).
(** csn1_ts_44_060.c:3320-3325; the structure: csn1_defs.h:3573. *)
Definition PEMR_AdditionsR9_t : descr :=
  (DNext false 1%nat 0 1 false                                  (* M_NEXT_EXIST Exist_UTRAN_CSG_Target_Cell, 1 *)
  (DType 4 12 false UTRAN_CSG_Target_Cell_t                     (* M_TYPE UTRAN_CSG_Target_Cell, UTRAN_CSG_Target_Cell_t *)
  (DNext false 1%nat 16 1 false                                 (* M_NEXT_EXIST Exist_EUTRAN_CSG_Target_Cell, 1 *)
  (DType 20 16 false EUTRAN_CSG_Target_Cell_t                   (* M_TYPE EUTRAN_CSG_Target_Cell, EUTRAN_CSG_Target_Cell_t *)
  DEnd)))).
(** csn1_ts_44_060.c:3334-3341; the structure: csn1_defs.h:3589. *)
Definition PEMR_AdditionsR8_t : descr :=
  (DUintOff 7 0 1 1                                             (* M_UINT_OFFSET BITMAP_LENGTH, 7, 1 *)
  (DTArr (CVar 0) 4 1024 8 Bitmap_Report_Quantity_t             (* M_VAR_TARRAY Bitmap_Report_Quantity, Bitmap_Report_Quantity_t, BITMAP_LENGTH *)
  (DNext false 1%nat 1028 4 false                               (* M_NEXT_EXIST Exist_EUTRAN_Meas_Rpt, 1 *)
  (DType 1032 26 false EUTRAN_Measurement_Report_t              (* M_TYPE EUTRAN_Meas_Rpt, EUTRAN_Measurement_Report_t *)
  (DNext false 1%nat 1060 4 true                                (* M_NEXT_EXIST_OR_NULL Exist_AdditionsR9, 1 *)
  (DType 1064 36 false PEMR_AdditionsR9_t                       (* M_TYPE AdditionsR9, PEMR_AdditionsR9_t *)
  DEnd)))))).
(** csn1_ts_44_060.c:3344-3349; the structure: csn1_defs.h:3597. *)
Definition PEMR_AdditionsR5_t : descr :=
  (DNext false 1%nat 0 4 false                                  (* M_NEXT_EXIST Exist_GRNTI_Ext, 1 *)
  (DUint 4 4 1 false                                            (* M_UINT GRNTI_Ext, 4 *)
  (DNext false 1%nat 8 4 true                                   (* M_NEXT_EXIST_OR_NULL Exist_AdditionsR8, 1 *)
  (DType 12 1100 false PEMR_AdditionsR8_t                       (* M_TYPE AdditionsR8, PEMR_AdditionsR8_t *)
  DEnd)))).
(** csn1_ts_44_060.c:3353-3369; the structure: csn1_defs.h:3612. *)
Definition Packet_Enh_Measurement_Report_t : descr :=
  (DUint 2 1 1 false                                            (* M_UINT PayloadType, 2 *)
  (DUint 5 2 1 false                                            (* M_UINT spare, 5 *)
  (DUint 1 3 1 false                                            (* M_UINT R, 1 *)
  (DUint 6 0 1 false                                            (* M_UINT MESSAGE_TYPE, 6 *)
  (DUint 32 4 4 false                                           (* M_UINT TLLI, 32 *)
  (DType 8 252 false ENH_NC_Measurement_Report_t                (* M_TYPE Measurements, ENH_NC_Measurement_Report_t *)
  (DNext false 1%nat 260 4 true                                 (* M_NEXT_EXIST_OR_NULL Exist_AdditionsR5, 1 *)
  (DType 264 1112 false PEMR_AdditionsR5_t                      (* M_TYPE AdditionsR5, PEMR_AdditionsR5_t *)
  (DPad                                                         (* M_PADDING_BITS *)
  DEnd))))))))).
(** csn1_ts_44_060.c:3860-3864, the list of alternatives. *)
Definition ch_AdditionalMsRadAccessCapID : descr :=
  (DAlt 1 0 false (DType 4 2 false Global_TFI_t DEnd)
  (DAlt 1 1 false (DUint 32 4 4 false DEnd)
  DEnd)).
(** csn1_ts_44_060.c:3867-3869; the structure: csn1_defs.h:5014. *)
Definition AdditionalMsRadAccessCapID_t : descr :=
  (DChoice 0 1 ch_AdditionalMsRadAccessCapID                    (* M_CHOICE UnionType, AdditionalMsRadAccessCapID, ElementsOf(AdditionalMsRadAccessCapID) *)
  DEnd).
(** csn1_ts_44_060.c:3873-3884; the structure: csn1_defs.h:5026. *)
Definition Additional_MS_Rad_Access_Cap_t : descr :=
  (DUint 2 1 1 false                                            (* M_UINT PayloadType, 2 *)
  (DUint 5 2 1 false                                            (* M_UINT spare, 5 *)
  (DUint 1 3 1 false                                            (* M_UINT R, 1 *)
  (DUint 6 0 1 false                                            (* M_UINT MESSAGE_TYPE, 6 *)
  (DType 4 8 false AdditionalMsRadAccessCapID_t                 (* M_TYPE ID, AdditionalMsRadAccessCapID_t *)
  (DType 12 760 false MS_Radio_Access_capability2_t             (* M_TYPE MS_Radio_Access_capability2, MS_Radio_Access_capability2_t *)
  (DPad                                                         (* M_PADDING_BITS *)
  DEnd))))))).
(** csn1_ts_44_060.c:3417-3420; the structure: csn1_defs.h:3628. *)
Definition Target_Cell_GSM_Notif_t : descr :=
  (DUint 10 0 2 false                                           (* M_UINT ARFCN, 10 *)
  (DUint 6 2 1 false                                            (* M_UINT BSIC, 6 *)
  DEnd)).
(** csn1_ts_44_060.c:3423-3428; the structure: csn1_defs.h:3636. *)
Definition FDD_Target_Cell_Notif_t : descr :=
  (DUint 14 0 2 false                                           (* M_UINT FDD_ARFCN, 14 *)
  (DNext false 1%nat 2 1 false                                  (* M_NEXT_EXIST Exist_Bandwith_FDD, 1 *)
  (DUint 3 3 1 false                                            (* M_UINT BANDWITH_FDD, 3 *)
  (DUint 9 4 2 false                                            (* M_UINT SCRAMBLING_CODE, 9 *)
  DEnd)))).
(** csn1_ts_44_060.c:3431-3437; the structure: csn1_defs.h:3645. *)
Definition TDD_Target_Cell_Notif_t : descr :=
  (DUint 14 0 2 false                                           (* M_UINT TDD_ARFCN, 14 *)
  (DNext false 1%nat 2 1 false                                  (* M_NEXT_EXIST Exist_Bandwith_TDD, 1 *)
  (DUint 3 3 1 false                                            (* M_UINT BANDWITH_TDD, 3 *)
  (DUint 7 4 1 false                                            (* M_UINT CELL_PARAMETER, 7 *)
  (DUint 1 5 1 false                                            (* M_UINT Sync_Case_TSTD, 1 *)
  DEnd))))).
(** csn1_ts_44_060.c:3440-3446; the structure: csn1_defs.h:3654. *)
Definition Target_Cell_3G_Notif_t : descr :=
  (DNext false 1%nat 0 1 false                                  (* M_NEXT_EXIST Exist_FDD_Description, 1 *)
  (DType 2 6 false FDD_Target_Cell_Notif_t                      (* M_TYPE FDD_Target_Cell_Notif, FDD_Target_Cell_Notif_t *)
  (DNext false 1%nat 8 1 false                                  (* M_NEXT_EXIST Exist_TDD_Description, 1 *)
  (DType 10 6 false TDD_Target_Cell_Notif_t                     (* M_TYPE TDD_Target_Cell, TDD_Target_Cell_Notif_t *)
  (DUint 6 16 1 false                                           (* M_UINT REPORTING_QUANTITY, 6 *)
  DEnd))))).
(** csn1_ts_44_060.c:3449-3455; the structure: csn1_defs.h:3663. *)
Definition Target_EUTRAN_Cell_Notif_t : descr :=
  (DUint 16 0 2 false                                           (* M_UINT EARFCN, 16 *)
  (DNext false 1%nat 2 1 false                                  (* M_NEXT_EXIST Exist_Measurement_Bandwidth, 1 *)
  (DUint 3 3 1 false                                            (* M_UINT Measurement_Bandwidth, 3 *)
  (DUint 9 4 2 false                                            (* M_UINT Physical_Layer_Cell_Identity, 9 *)
  (DUint 6 6 1 false                                            (* M_UINT Reporting_Quantity, 6 *)
  DEnd))))).
(** csn1_ts_44_060.c:3458-3462; the structure: csn1_defs.h:3670. *)
Definition Eutran_Ccn_Measurement_Report_Cell_t : descr :=
  (DUint 3 0 1 false                                            (* M_UINT EUTRAN_FREQUENCY_INDEX, 3 *)
  (DUint 9 2 2 false                                            (* M_UINT CELL_IDENTITY, 9 *)
  (DUint 6 4 1 false                                            (* M_UINT REPORTING_QUANTITY, 6 *)
  DEnd))).
(** csn1_ts_44_060.c:3466-3470; the structure: csn1_defs.h:3677. *)
Definition Eutran_Ccn_Measurement_Report_t : descr :=
  (DUint 1 0 4 false                                            (* M_UINT ThreeG_BA_USED, 1 *)
  (DUintOff 2 4 1 1                                             (* M_UINT_OFFSET N_EUTRAN, 2, 1 *)
  (DTArr (CVar 4) 6 24 6 Eutran_Ccn_Measurement_Report_Cell_t   (* M_VAR_TARRAY Eutran_Ccn_Measurement_Report_Cell, Eutran_Ccn_Measurement_Report_Cell_t, N_EUTRAN *)
  DEnd))).
(** csn1_ts_44_060.c:3473-3483; the structure: csn1_defs.h:3690. *)
Definition Target_Cell_4G_Notif_t : descr :=
  (DNext false 2%nat 0 1 false                                  (* M_NEXT_EXIST Exist_Arfcn, 2 *)
  (DUint 10 2 2 false                                           (* M_UINT Arfcn, 10 *)
  (DUint 6 4 1 false                                            (* M_UINT bsic, 6 *)
  (DNext false 1%nat 5 1 false                                  (* M_NEXT_EXIST Exist_3G_Target_Cell, 1 *)
  (DType 6 18 false Target_Cell_3G_Notif_t                      (* M_TYPE Target_Cell_3G_Notif, Target_Cell_3G_Notif_t *)
  (DNext false 1%nat 24 1 false                                 (* M_NEXT_EXIST Exist_Eutran_Target_Cell, 1 *)
  (DType 26 8 false Target_EUTRAN_Cell_Notif_t                  (* M_TYPE Target_EUTRAN_Cell, Target_EUTRAN_Cell_Notif_t *)
  (DNext false 1%nat 34 1 false                                 (* M_NEXT_EXIST Exist_Eutran_Ccn_Measurement_Report, 1 *)
  (DType 36 32 false Eutran_Ccn_Measurement_Report_t            (* M_TYPE Eutran_Ccn_Measurement_Report, Eutran_Ccn_Measurement_Report_t *)
  DEnd))))))))).
(** csn1_ts_44_060.c:3486-3493; the structure: csn1_defs.h:3702. *)
Definition Target_Cell_CSG_Notif_t : descr :=
  (DFixed 1 0                                                   (* M_FIXED 1, 0x00 *)
  (DUnion false 2%nat 0 1                                       (* M_UNION *)
  (DType 4 24 false UTRAN_CSG_Measurement_Report_t              (* M_TYPE u.UTRAN_CSG_Measurement_Report, UTRAN_CSG_Measurement_Report_t *)
  (DType 4 28 false EUTRAN_CSG_Measurement_Report_t             (* M_TYPE u.EUTRAN_CSG_Measurement_Report, EUTRAN_CSG_Measurement_Report_t *)
  (DNext false 1%nat 32 1 false                                 (* M_NEXT_EXIST Exist_Eutran_Ccn_Measurement_Report, 1 *)
  (DType 36 32 false Eutran_Ccn_Measurement_Report_t            (* M_TYPE Eutran_Ccn_Measurement_Report, Eutran_Ccn_Measurement_Report_t *)
  DEnd)))))).
(** csn1_ts_44_060.c:3496-3501; the structure: csn1_defs.h:3712. *)
Definition Target_Other_RAT_2_Notif_t : descr :=
  (DUnion false 2%nat 0 1                                       (* M_UNION *)
  (DType 4 68 false Target_Cell_4G_Notif_t                      (* M_TYPE u.Target_Cell_4G_Notif, Target_Cell_4G_Notif_t *)
  (DType 4 68 false Target_Cell_CSG_Notif_t                     (* M_TYPE u.Target_Cell_CSG_Notif, Target_Cell_CSG_Notif_t *)
  DEnd))).
(** csn1_ts_44_060.c:3504-3509; the structure: csn1_defs.h:3723. *)
Definition Target_Other_RAT_Notif_t : descr :=
  (DUnion false 2%nat 0 1                                       (* M_UNION *)
  (DType 4 18 false Target_Cell_3G_Notif_t                      (* M_TYPE u.Target_Cell_3G_Notif, Target_Cell_3G_Notif_t *)
  (DType 4 72 false Target_Other_RAT_2_Notif_t                  (* M_TYPE u.Target_Other_RAT_2_Notif, Target_Other_RAT_2_Notif_t *)
  DEnd))).
(** csn1_ts_44_060.c:3512-3517; the structure: csn1_defs.h:3733. *)
Definition Target_Cell_t : descr :=
  (DUnion false 2%nat 0 1                                       (* M_UNION *)
  (DType 4 4 false Target_Cell_GSM_Notif_t                      (* M_TYPE u.Target_Cell_GSM_Notif, Target_Cell_GSM_Notif_t *)
  (DType 4 76 false Target_Other_RAT_Notif_t                    (* M_TYPE u.Target_Other_RAT_Notif, Target_Other_RAT_Notif_t *)
  DEnd))).
(** csn1_ts_44_060.c:3409-3414; the structure: csn1_defs.h:3622. *)
Definition CCN_Measurement_Report_t : descr :=
  (DUint 6 0 1 false                                            (* M_UINT RXLEV_SERVING_CELL, 6 *)
  (DFixed 1 0                                                   (* M_FIXED 1, 0 *)
  (DUint 3 1 1 false                                            (* M_UINT NUMBER_OF_NC_MEASUREMENTS, 3 *)
  (DTArr (CVar 1) 2 24 4 NC_Measurements_t                      (* M_VAR_TARRAY NC_Measurements, NC_Measurements_t, NUMBER_OF_NC_MEASUREMENTS *)
  DEnd)))).
(** csn1_ts_44_060.c:3520-3526; the structure: csn1_defs.h:3742. *)
Definition PCCN_AdditionsR6_t : descr :=
  (DNext false 1%nat 0 1 false                                  (* M_NEXT_EXIST Exist_BA_USED_3G, 1 *)
  (DUint 1 1 1 false                                            (* M_UINT BA_USED_3G, 1 *)
  (DUintOff 3 2 1 1                                             (* M_UINT_OFFSET N_3G, 3, 1 *)
  (DTArr (CVarOff 2) 3 12 2 Measurements_3G_t                   (* M_VAR_TARRAY_OFFSET Measurements_3G, Measurements_3G_t, N_3G *)
  DEnd)))).
(** csn1_ts_44_060.c:3530-3553; the structure: csn1_defs.h:3768. *)
Definition Packet_Cell_Change_Notification_t : descr :=
  (DUint 2 1 1 false                                            (* M_UINT PayloadType, 2 *)
  (DUint 5 2 1 false                                            (* M_UINT spare, 5 *)
  (DUint 1 3 1 false                                            (* M_UINT R, 1 *)
  (DUint 6 0 1 false                                            (* M_UINT MESSAGE_TYPE, 6 *)
  (DType 4 2 false Global_TFI_t                                 (* M_TYPE Global_TFI, Global_TFI_t *)
  (DType 8 80 false Target_Cell_t                               (* M_TYPE Target_Cell, Target_Cell_t *)
  (DUnion false 2%nat 88 1                                      (* M_UNION *)
  (DUint 1 89 1 false                                           (* M_UINT u.BA_IND, 1 *)
  (DUint 2 89 1 false                                           (* M_UINT u.PSI3_CHANGE_MARK, 2 *)
  (DUint 1 90 1 false                                           (* M_UINT PMO_USED, 1 *)
  (DUint 1 91 1 false                                           (* M_UINT PCCN_SENDING, 1 *)
  (DType 92 26 false CCN_Measurement_Report_t                   (* M_TYPE CCN_Measurement_Report, CCN_Measurement_Report_t *)
  (DNext false 1%nat 120 4 true                                 (* M_NEXT_EXIST_OR_NULL Exist_AdditionsR6, 1 *)
  (DType 124 15 false PCCN_AdditionsR6_t                        (* M_TYPE AdditionsR6, PCCN_AdditionsR6_t *)
  (DPad                                                         (* M_PADDING_BITS *)
  DEnd))))))))))))))).
(** csn1_ts_44_060.c:743-746; the structure: csn1_defs.h:1745. *)
Definition SI_Message_t : descr :=
  (DUint 8 0 1 false                                            (* M_UINT SI_MESSAGE_TYPE, 8 *)
  (DUint 2 1 1 false                                            (* M_UINT MESS_REC, 2 *)
  DEnd)).
(** csn1_ts_44_060.c:749-753; the structure: csn1_defs.h:1753. *)
Definition SI_Message_List_t : descr :=
  (DRecTArr false 0 1 60 6 10 SI_Message_t                      (* M_REC_TARRAY SI_Message, SI_Message_t, Count_SI_Message *)
  (DFixed 1 0                                                   (* M_FIXED 1, 0x00 *)
  (DUint 1 61 1 false                                           (* M_UINT ADDITIONAL_MSG_TYPE, 1 *)
  DEnd))).
(** csn1_ts_44_060.c:756-759; the structure: csn1_defs.h:1758. *)
Definition Unknown_SI_Message_List_t : descr :=
  (DFixed 1 0                                                   (* M_FIXED 1, 0x00 *)
  (DUint 1 0 1 false                                            (* M_UINT ADDITIONAL_MSG_TYPE, 1 *)
  DEnd)).
(** csn1_ts_44_060.c:762-775; the structure: csn1_defs.h:1772. *)
Definition Packet_SI_Status_t : descr :=
  (DUint 2 1 1 false                                            (* M_UINT PayloadType, 2 *)
  (DUint 5 2 1 false                                            (* M_UINT spare, 5 *)
  (DUint 1 3 1 false                                            (* M_UINT R, 1 *)
  (DUint 6 0 1 false                                            (* M_UINT MESSAGE_TYPE, 6 *)
  (DType 4 2 false Global_TFI_t                                 (* M_TYPE Global_TFI, Global_TFI_t *)
  (DUint 3 6 1 false                                            (* M_UINT BCCH_CHANGE_MARK, 3 *)
  (DType 7 62 false SI_Message_List_t                           (* M_TYPE SI_Message_List, SI_Message_List_t *)
  (DType 69 1 false Unknown_SI_Message_List_t                   (* M_TYPE Unknown_SI_Message_List, Unknown_SI_Message_List_t *)
  (DPad                                                         (* M_PADDING_BITS *)
  DEnd))))))))).

(** sizeof the structures handed to the decoder (LP64 layout of csn1_defs.h). *)
Definition sz_Packet_Access_Reject_t : Z := 64.   (* csn1_defs.h:3274 *)
Definition sz_Packet_Cell_Change_Order_t : Z := 67336.   (* csn1_defs.h:4661 *)
Definition sz_Packet_Cell_Change_Continue_t : Z := 10.   (* csn1_defs.h:4674 *)
Definition sz_Packet_Downlink_Assignment_t : Z := 184.   (* csn1_defs.h:2416 *)
Definition sz_Packet_Measurement_Order_t : Z := 123684.   (* csn1_defs.h:4753 *)
Definition sz_Packet_Neighbour_Cell_Data_t : Z := 30.   (* csn1_defs.h:4711 *)
Definition sz_Packet_Serving_Cell_Data_t : Z := 25.   (* csn1_defs.h:4723 *)
Definition sz_Packet_Paging_Request_t : Z := 85.   (* csn1_defs.h:2511 *)
Definition sz_Packet_PDCH_Release_t : Z := 3.   (* csn1_defs.h:2519 *)
Definition sz_Packet_Polling_Request_t : Z := 16.   (* csn1_defs.h:929 *)
Definition sz_Packet_Power_Control_Timing_Advance_t : Z := 42.   (* csn1_defs.h:2566 *)
Definition sz_Packet_PRACH_Parameters_t : Z := 15.   (* csn1_defs.h:3243 *)
Definition sz_Packet_Queueing_Notification_t : Z := 8.   (* csn1_defs.h:2577 *)
Definition sz_Packet_Timeslot_Reconfigure_t : Z := 160.   (* csn1_defs.h:2687 *)
Definition sz_Packet_TBF_Release_t : Z := 7.   (* csn1_defs.h:1078 *)
Definition sz_Packet_Uplink_Ack_Nack_t : Z := 148.   (* csn1_defs.h:2019 *)
Definition sz_Packet_Uplink_Assignment_t : Z := 184.   (* csn1_defs.h:2306 *)
Definition sz_Packet_Handover_Command_t : Z := 264.   (* csn1_defs.h:4987 *)
Definition sz_Packet_PhysicalInformation_t : Z := 5.   (* csn1_defs.h:4999 *)
Definition sz_Packet_Downlink_Dummy_Control_Block_t : Z := 7.   (* csn1_defs.h:1127 *)
Definition sz_PSI1_t : Z := 72.   (* csn1_defs.h:2746 *)
Definition sz_PSI2_t : Z := 556.   (* csn1_defs.h:2861 *)
Definition sz_PSI3_t : Z := 15936.   (* csn1_defs.h:3046 *)
Definition sz_PSI5_t : Z := 80.   (* csn1_defs.h:3173 *)
Definition sz_PSI13_t : Z := 84.   (* csn1_defs.h:3230 *)
Definition sz_IA_RestOctets_t : Z := 80.   (* csn1_defs.h:872 *)
Definition sz_SI13_RestOctets_t : Z := 84.   (* csn1_defs.h:3233 *)
Definition sz_P1_Rest_Octets_t : Z := 44.   (* csn1_defs.h:578 *)
Definition sz_P2_Rest_Octets_t : Z := 12.   (* csn1_defs.h:599 *)
Definition sz_Packet_Resource_Request_t : Z := 1308.   (* csn1_defs.h:1684 *)
Definition sz_Packet_Downlink_Ack_Nack_t : Z := 56.   (* csn1_defs.h:1890 *)
Definition sz_Packet_Control_Acknowledgement_t : Z := 28.   (* csn1_defs.h:1108 *)
Definition sz_Packet_Uplink_Dummy_Control_Block_t : Z := 8.   (* csn1_defs.h:1138 *)
Definition sz_Packet_Cell_Change_Failure_t : Z := 92.   (* csn1_defs.h:1864 *)
Definition sz_Packet_Measurement_Report_t : Z := 212.   (* csn1_defs.h:3535 *)
Definition sz_Packet_Mobile_TBF_Status_t : Z := 9.   (* csn1_defs.h:1699 *)
Definition sz_Packet_PSI_Status_t : Z := 40.   (* csn1_defs.h:1734 *)
Definition sz_EGPRS_PD_AckNack_t : Z := 284.   (* csn1_defs.h:1923 *)
Definition sz_Packet_Pause_t : Z := 16.   (* csn1_defs.h:5039 *)
Definition sz_Packet_Enh_Measurement_Report_t : Z := 1376.   (* csn1_defs.h:3612 *)
Definition sz_Additional_MS_Rad_Access_Cap_t : Z := 772.   (* csn1_defs.h:5026 *)
Definition sz_Packet_Cell_Change_Notification_t : Z := 140.   (* csn1_defs.h:3768 *)
Definition sz_Packet_SI_Status_t : Z := 70.   (* csn1_defs.h:1772 *)
