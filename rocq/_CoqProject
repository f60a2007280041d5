-Q theories Verif

theories/Base.v
theories/M_Base64.v
theories/M_Base64Vlq.v
theories/M_ArraySet.v
theories/M_BinarySearch.v
theories/M_Mapping.v
theories/M_Util.v
theories/M_SourceMap.v
theories/M_Generator.v
theories/M_Json.v
theories/M_MapLib.v
theories/M_Consumer.v
theories/M_Indexed.v
theories/F_Base.v
theories/S_Vlq.v
theories/F_Vlq.v
theories/P_Vlq.v
theories/S_List.v
theories/S_ArraySet.v
theories/F_ArraySet.v
theories/P_ArraySet.v
theories/S_Search.v
theories/F_Search.v
theories/P_Search.v
theories/S_Mapping.v
theories/F_Sort.v
theories/F_Mapping.v
theories/F_MappingList.v
theories/P_Mapping.v
theories/S_Decode.v
theories/S_Generator.v
theories/S_Far.v
theories/F_Decode.v
theories/F_Serialize.v
theories/F_Generator.v
theories/F_FarLoop.v
theories/F_GeneratorProps.v
theories/P_Generator.v
theories/S_Json.v
theories/F_Dec.v
theories/F_JsonText.v
theories/F_Json.v
theories/F_Dispatch.v
theories/P_Json.v
theories/F_JsonRead.v
theories/P_JsonRead.v
theories/S_Url.v
theories/F_UrlText.v
theories/F_UrlPath.v
theories/F_UrlOps.v
theories/F_Url.v
theories/F_UrlSource.v
theories/F_Escape.v
theories/F_UrlRef.v
theories/F_UrlProps.v
theories/S_Refs.v
theories/F_Refs.v
theories/P_Refs.v
theories/F_Short.v
theories/P_Url.v
theories/S_UrlKind.v
theories/F_UrlKind.v
theories/P_UrlKind.v
theories/S_Contents.v
theories/F_Contents.v
theories/P_Contents.v
theories/S_MapLib.v
theories/F_MapLibRef.v
theories/S_Consumer.v
theories/F_Consumer.v
theories/F_ConsumerProps.v
theories/F_EndToEnd.v
theories/F_Listed.v
theories/P_Consumer.v
theories/F_Views.v
theories/P_Views.v
theories/F_Shortest.v
theories/P_Text.v
theories/S_Append.v
theories/F_Append.v
theories/P_Append.v
theories/S_Looks.v
theories/F_Far.v
theories/F_Looks.v
theories/P_Far.v
theories/P_Looks.v
theories/S_Wrap.v
theories/F_Wrap.v
theories/P_Wrap.v
theories/F_Copy.v
theories/P_Copy.v
theories/P_Listed.v
theories/S_Escape.v
theories/F_EscapeUrl.v
theories/F_Written.v
theories/P_Escape.v
theories/P_EndToEnd.v
theories/S_EndToEnd.v
theories/F_Queries.v
theories/P_Queries.v
theories/S_Indexed.v
theories/F_Indexed.v
theories/F_IndexedProps.v
theories/P_Indexed.v
theories/S_Bundle.v
theories/F_Bundle.v
theories/P_Bundle.v
theories/S_Modes.v
theories/F_Modes.v
theories/P_Modes.v
theories/S_Refused.v
theories/F_Refused.v
theories/P_Refused.v
theories/F_Opaque.v
theories/P_Opaque.v
theories/T_Repo.v
theories/S_Opens.v
theories/F_Opens.v
theories/P_Opens.v
theories/S_Rewrite.v
theories/F_Rewrite.v
theories/P_Rewrite.v
theories/S_Backslash.v
theories/F_Backslash.v
theories/P_Backslash.v
theories/S_MapUrl.v
theories/F_MapUrl.v
theories/P_MapUrl.v
theories/S_Files.v
theories/F_Files.v
theories/P_Files.v
theories/S_OpensAt.v
theories/F_OpensAt.v
theories/P_OpensAt.v
theories/S_OpensIndexed.v
theories/F_OpensIndexed.v
theories/P_OpensIndexed.v
theories/S_RootContents.v
theories/F_RootContents.v
theories/P_RootContents.v
theories/S_Adds.v
theories/F_Adds.v
theories/P_Adds.v
theories/S_DataMap.v
theories/F_DataMap.v
theories/P_DataMap.v
theories/S_Writable.v
theories/F_Writable.v
theories/P_Writable.v
theories/P_LeftQueries.v
theories/S_Back.v
theories/F_Back.v
theories/P_Back.v
theories/S_Lookup.v
theories/F_Lookup.v
theories/P_Lookup.v
theories/S_Alias.v
theories/F_Alias.v
theories/P_Alias.v
theories/S_Redo.v
theories/F_Redo.v
theories/F_Banner.v
theories/P_Redo.v
theories/S_Twin.v
theories/F_Twin.v
theories/P_Twin.v
theories/S_Sections.v
theories/F_Sections.v
theories/P_Sections.v
theories/S_Single.v
theories/F_Single.v
theories/P_Single.v
theories/S_Quiet.v
theories/F_Quiet.v
theories/P_Quiet.v
theories/M_Unwind.v
theories/S_Unwind.v
theories/F_Unwind.v
theories/F_UnwindSpans.v
theories/P_Unwind.v
theories/M_UnwindGen.v
theories/S_UnwindGen.v
theories/F_UnwindGen.v
theories/F_UnwindContents.v
theories/P_UnwindGen.v
theories/S_Order.v
theories/F_Order.v
theories/F_OrderQueries.v
theories/P_Order.v
theories/F_More.v
theories/P_More.v
theories/S_Fields.v
theories/F_Fields.v
theories/F_FieldsIndexed.v
theories/P_Fields.v
theories/S_Covers.v
theories/F_Covers.v
theories/P_Covers.v
theories/S_Joined.v
theories/F_Joined.v
theories/P_Joined.v
theories/F_Cross.v
theories/P_Cross.v
