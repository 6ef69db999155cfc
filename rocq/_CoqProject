-Q theories Verif
theories/Base.v
theories/Enums.v
theories/DDScalar.v
theories/P_Scalar.v
theories/Props_Scalar.v
theories/Utf8.v
theories/P_Utf8.v
theories/DDString.v
theories/P_String.v
theories/Props_String.v
theories/DDRecord.v
theories/Chunks.v
theories/Scanner.v
theories/P_Scanner.v
theories/RawTypes.v
theories/RawCard.v
theories/P_RawCard.v
theories/Infer.v
theories/Props_RawCard.v
theories/CardBasic.v
theories/Field.v
theories/P_Basic.v
theories/Props_Basic.v
theories/CardRecords.v
theories/P_Record.v
theories/P_Records.v
theories/Props_Records.v
theories/CardIdent.v
theories/P_Ident.v
theories/Props_Ident.v
theories/CardActivity.v
theories/Props_Activity.v
theories/Asn1.v
theories/Cert.v
theories/P_Cert.v
theories/Props_Cert.v
theories/DriverCard.v
theories/Vu.v
theories/VuLegacy.v
theories/Verify.v
theories/Api.v
theories/P_Driver.v
theories/P_Dump.v
theories/Props_Dump.v
theories/Props_Driver.v
theories/P_Write.v
theories/Props_Write.v
theories/P_Vu.v
theories/Props_Vu.v
theories/Props_Verify.v
theories/Anonymize.v
theories/P_Anonymize.v
theories/Props_Anonymize.v
theories/Props_Edit.v
theories/Props_Layout.v
theories/Props_Overview.v
theories/P_VuRecord.v
theories/Props_VuWrite.v
theories/P_OverviewWrite.v
theories/Props_OverviewWrite.v
theories/Props_Signed.v
theories/Props_VuActivities.v
theories/P_VuLegacy.v
theories/Props_VuLegacy.v
theories/P_Build.v
theories/Props_Build.v
theories/Props_BuildCard.v
theories/Props_Framed.v
theories/Props_Download.v
theories/Props_Readable.v
theories/Props_Number.v
theories/FetchCerts.v
theories/Props_Fetch.v
theories/Props_FetchRun.v
theories/Props_FetchIndex.v
theories/Props_FetchDates.v
theories/Props_Text.v
theories/Cli.v
theories/Props_Cli.v
theories/Props_Size.v
theories/Share.v
theories/P_Share.v
theories/Props_Share.v
theories/VerifyShared.v
theories/Props_VerifyShared.v
theories/Conf_Json.v
theories/Conf_Golden.v
theories/Conf_Card.v
theories/Conf_Cert.v
theories/Conf_Dd.v
theories/Rsa.v
theories/Issue.v
theories/Props_Issue.v
theories/Props_IssueCase.v
theories/Width.v
theories/Props_Width.v
theories/Props_EditFiles.v
theories/Props_Lists.v
theories/Nil.v
theories/Props_Nil.v
theories/Props_Crash.v
theories/NilAnonymize.v
theories/Props_NilAnonymize.v
theories/Props_Numbers.v
theories/P_ScanFinal.v
theories/Props_ScanExact.v
theories/P_WriteAll.v
theories/Props_SameMessage.v
theories/Props_Charset.v
theories/P_SameCard.v
theories/Props_SameCard.v
theories/AnonHeap.v
theories/P_AnonHeap.v
theories/P_AnonSpec.v
theories/Props_AnonHeap.v
theories/Props_Sizes.v
theories/Props_Days.v
theories/FetchMain.v
theories/Props_FetchMain.v
theories/Props_Missing.v
theories/CardOptions.v
theories/Props_Independent.v
theories/Props_Declared.v
theories/Props_OverviewAny.v
theories/Props_VerifyAgain.v
theories/Props_Joined.v
theories/Props_VuParts.v
theories/Props_Unambiguous.v
theories/Props_Altered.v
theories/VerifyAtOnce.v
theories/Props_VerifyAtOnce.v
theories/Props_MoreSources.v
theories/Anchor.v
theories/Props_Anchor.v
theories/VerifyNet.v
theories/Props_VerifyNet.v
theories/Work.v
theories/Props_Work.v
theories/WriteVerify.v
theories/Props_WriteVerify.v
theories/Props_EditLocal.v
theories/Props_SameKind.v
theories/Props_CutOff.v
theories/ScanWork.v
theories/Props_ScanWork.v
theories/FetchLimit.v
theories/Props_FetchLimit.v
theories/Props_Removed.v
theories/Props_Purpose.v
theories/Props_OneForm.v
theories/Props_Named.v
theories/Use.v
theories/Props_Use.v
theories/Props_Newest.v
theories/Props_Downloads.v
theories/Props_WholeCard.v
theories/Props_Order.v
theories/Props_Unrolled.v
