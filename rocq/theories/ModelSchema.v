(** The migration scripts (pyulog/sql/pyulog.N.sql), transcribed statement by statement by
    tools/sql2v.py. *)
From Verif Require Import Base Dict Sql.

(** pyulog/sql/pyulog.1.sql 1-117 *)
Definition script1 : list stmt :=
  [ SBegin;
    SCreate (lit "ULog") (mkTD
      [mkCD (lit "Id") AInt None true;
       mkCD (lit "FileVersion") AInt None false;
       mkCD (lit "StartTimestamp") AReal None false;
       mkCD (lit "LastTimestamp") AReal None false;
       mkCD (lit "CompatFlags") AText None false;
       mkCD (lit "IncompatFlags") AText None false;
       mkCD (lit "SyncCount") AInt None false;
       mkCD (lit "HasSync") ANum None false]
      []);
    SCreate (lit "ULogAppendedOffsets") (mkTD
      [mkCD (lit "SeriesIndex") AInt None false;
       mkCD (lit "Offset") AInt None false;
       mkCD (lit "ULogId") AInt (Some ((lit "ulog"), false)) false]
      []);
    SCreate (lit "ULogDataset") (mkTD
      [mkCD (lit "Id") AInt None true;
       mkCD (lit "DatasetName") AText None false;
       mkCD (lit "MultiId") AInt None false;
       mkCD (lit "MessageId") AInt None false;
       mkCD (lit "TimestampIndex") AInt None false;
       mkCD (lit "ULogId") AInt (Some ((lit "ulog"), false)) false]
      [[(lit "ULogId"); (lit "DatasetName"); (lit "MultiId")]]);
    SCreate (lit "ULogField") (mkTD
      [mkCD (lit "Id") AInt None true;
       mkCD (lit "TopicName") AText None false;
       mkCD (lit "DataType") AText None false;
       mkCD (lit "ValueArray") ABlob None false;
       mkCD (lit "DatasetId") AInt (Some ((lit "ulogdataset"), false)) false]
      []);
    SIndex (lit "btree_ulogfield_datasetid") (lit "ULogField") (lit "DatasetId");
    SCreate (lit "ULogMessageDropout") (mkTD
      [mkCD (lit "Timestamp") AReal None false;
       mkCD (lit "Duration") AReal None false;
       mkCD (lit "ULogId") AInt (Some ((lit "ulog"), false)) false]
      []);
    SCreate (lit "ULogMessageFormat") (mkTD
      [mkCD (lit "Id") AInt None true;
       mkCD (lit "Name") AText None false;
       mkCD (lit "ULogId") AInt (Some ((lit "ulog"), false)) false]
      []);
    SCreate (lit "ULogMessageFormatField") (mkTD
      [mkCD (lit "FieldType") AText None false;
       mkCD (lit "ArraySize") AInt None false;
       mkCD (lit "Name") AText None false;
       mkCD (lit "MessageId") AInt (Some ((lit "ulogmessageformat"), false)) false]
      []);
    SCreate (lit "ULogMessageLogging") (mkTD
      [mkCD (lit "LogLevel") AInt None false;
       mkCD (lit "Timestamp") AReal None false;
       mkCD (lit "Message") AText None false;
       mkCD (lit "ULogId") AInt (Some ((lit "ulog"), false)) false]
      []);
    SCreate (lit "ULogMessageLoggingTagged") (mkTD
      [mkCD (lit "LogLevel") AInt None false;
       mkCD (lit "Timestamp") AReal None false;
       mkCD (lit "Tag") AInt None false;
       mkCD (lit "Message") AText None false;
       mkCD (lit "ULogId") AInt (Some ((lit "ulog"), false)) false]
      []);
    SCreate (lit "ULogMessageInfo") (mkTD
      [mkCD (lit "Key") AText None false;
       mkCD (lit "Typename") AText None false;
       mkCD (lit "Value") ABlob None false;
       mkCD (lit "ULogId") AInt (Some ((lit "ulog"), false)) false]
      []);
    SCreate (lit "ULogMessageInfoMultiple") (mkTD
      [mkCD (lit "Id") AInt None true;
       mkCD (lit "Key") AText None false;
       mkCD (lit "Typename") AText None false;
       mkCD (lit "ULogId") AInt (Some ((lit "ulog"), false)) false]
      []);
    SCreate (lit "ULogMessageInfoMultipleList") (mkTD
      [mkCD (lit "Id") AInt None true;
       mkCD (lit "SeriesIndex") AInt None false;
       mkCD (lit "MessageId") AText (Some ((lit "ulogmessageinfomultiple"), false)) false]
      []);
    SCreate (lit "ULogMessageInfoMultipleListElement") (mkTD
      [mkCD (lit "Id") AInt None true;
       mkCD (lit "SeriesIndex") AInt None false;
       mkCD (lit "Value") AText None false;
       mkCD (lit "ListId") AText (Some ((lit "ulogmessageinfomultiplelist"), false)) false]
      []);
    SCreate (lit "ULogInitialParameter") (mkTD
      [mkCD (lit "Key") AText None false;
       mkCD (lit "Value") ABlob None false;
       mkCD (lit "ULogId") AInt (Some ((lit "ulog"), false)) false]
      []);
    SCreate (lit "ULogChangedParameter") (mkTD
      [mkCD (lit "Timestamp") AReal None false;
       mkCD (lit "Key") AText None false;
       mkCD (lit "Value") ABlob None false;
       mkCD (lit "ULogId") AInt (Some ((lit "ulog"), false)) false]
      []);
    SCreate (lit "ULogDefaultParameter") (mkTD
      [mkCD (lit "DefaultType") AInt None false;
       mkCD (lit "Key") AText None false;
       mkCD (lit "Value") ABlob None false;
       mkCD (lit "ULogId") AInt (Some ((lit "ulog"), false)) false]
      []);
    SCommit ].

(** pyulog/sql/pyulog.2.sql 1-174 *)
Definition script2 : list stmt :=
  [ SBegin;
    SForeignKeys false;
    SCreate (lit "ULog_tmp") (mkTD
      [mkCD (lit "Id") AInt None true;
       mkCD (lit "SHA256Sum") AText None false;
       mkCD (lit "FileVersion") AInt None false;
       mkCD (lit "StartTimestamp") AReal None false;
       mkCD (lit "LastTimestamp") AReal None false;
       mkCD (lit "CompatFlags") AText None false;
       mkCD (lit "IncompatFlags") AText None false;
       mkCD (lit "SyncCount") AInt None false;
       mkCD (lit "HasSync") ANum None false]
      [[(lit "SHA256Sum")]]);
    SCopy (lit "ULog_tmp") (lit "ULog") (Some [(lit "Id"); (lit "FileVersion"); (lit "StartTimestamp"); (lit "LastTimestamp"); (lit "CompatFlags"); (lit "IncompatFlags"); (lit "SyncCount"); (lit "HasSync")]);
    SCreate (lit "ULogAppendedOffsets_tmp") (mkTD
      [mkCD (lit "SeriesIndex") AInt None false;
       mkCD (lit "Offset") AInt None false;
       mkCD (lit "ULogId") AInt (Some ((lit "ulog_tmp"), true)) false]
      []);
    SCopy (lit "ULogAppendedOffsets_tmp") (lit "ULogAppendedOffsets") None;
    SCreate (lit "ULogDataset_tmp") (mkTD
      [mkCD (lit "Id") AInt None true;
       mkCD (lit "DatasetName") AText None false;
       mkCD (lit "MultiId") AInt None false;
       mkCD (lit "MessageId") AInt None false;
       mkCD (lit "TimestampIndex") AInt None false;
       mkCD (lit "ULogId") AInt (Some ((lit "ulog"), true)) false]
      [[(lit "ULogId"); (lit "DatasetName"); (lit "MultiId")]]);
    SCopy (lit "ULogDataset_tmp") (lit "ULogDataset") None;
    SCreate (lit "ULogField_tmp") (mkTD
      [mkCD (lit "Id") AInt None true;
       mkCD (lit "TopicName") AText None false;
       mkCD (lit "DataType") AText None false;
       mkCD (lit "ValueArray") ABlob None false;
       mkCD (lit "DatasetId") AInt (Some ((lit "ulogdataset"), true)) false]
      []);
    SCopy (lit "ULogField_tmp") (lit "ULogField") None;
    SIndex (lit "btree_ulogfield_datasetid") (lit "ULogField_tmp") (lit "DatasetId");
    SCreate (lit "ULogMessageDropout_tmp") (mkTD
      [mkCD (lit "Timestamp") AReal None false;
       mkCD (lit "Duration") AReal None false;
       mkCD (lit "ULogId") AInt (Some ((lit "ulog"), true)) false]
      []);
    SCopy (lit "ULogMessageDropout_tmp") (lit "ULogMessageDropout") None;
    SCreate (lit "ULogMessageFormat_tmp") (mkTD
      [mkCD (lit "Id") AInt None true;
       mkCD (lit "Name") AText None false;
       mkCD (lit "ULogId") AInt (Some ((lit "ulog"), true)) false]
      []);
    SCopy (lit "ULogMessageFormat_tmp") (lit "ULogMessageFormat") None;
    SCreate (lit "ULogMessageFormatField_tmp") (mkTD
      [mkCD (lit "FieldType") AText None false;
       mkCD (lit "ArraySize") AInt None false;
       mkCD (lit "Name") AText None false;
       mkCD (lit "MessageId") AInt (Some ((lit "ulogmessageformat"), true)) false]
      []);
    SCopy (lit "ULogMessageFormatField_tmp") (lit "ULogMessageFormatField") None;
    SCreate (lit "ULogMessageLogging_tmp") (mkTD
      [mkCD (lit "LogLevel") AInt None false;
       mkCD (lit "Timestamp") AReal None false;
       mkCD (lit "Message") AText None false;
       mkCD (lit "ULogId") AInt (Some ((lit "ulog"), true)) false]
      []);
    SCopy (lit "ULogMessageLogging_tmp") (lit "ULogMessageLogging") None;
    SCreate (lit "ULogMessageLoggingTagged_tmp") (mkTD
      [mkCD (lit "LogLevel") AInt None false;
       mkCD (lit "Timestamp") AReal None false;
       mkCD (lit "Tag") AInt None false;
       mkCD (lit "Message") AText None false;
       mkCD (lit "ULogId") AInt (Some ((lit "ulog"), true)) false]
      []);
    SCopy (lit "ULogMessageLoggingTagged_tmp") (lit "ULogMessageLoggingTagged") None;
    SCreate (lit "ULogMessageInfo_tmp") (mkTD
      [mkCD (lit "Key") AText None false;
       mkCD (lit "Typename") AText None false;
       mkCD (lit "Value") ABlob None false;
       mkCD (lit "ULogId") AInt (Some ((lit "ulog"), true)) false]
      []);
    SCopy (lit "ULogMessageInfo_tmp") (lit "ULogMessageInfo") None;
    SCreate (lit "ULogMessageInfoMultiple_tmp") (mkTD
      [mkCD (lit "Id") AInt None true;
       mkCD (lit "Key") AText None false;
       mkCD (lit "Typename") AText None false;
       mkCD (lit "ULogId") AInt (Some ((lit "ulog"), true)) false]
      []);
    SCopy (lit "ULogMessageInfoMultiple_tmp") (lit "ULogMessageInfoMultiple") None;
    SCreate (lit "ULogMessageInfoMultipleList_tmp") (mkTD
      [mkCD (lit "Id") AInt None true;
       mkCD (lit "SeriesIndex") AInt None false;
       mkCD (lit "MessageId") AText (Some ((lit "ulogmessageinfomultiple"), true)) false]
      []);
    SCopy (lit "ULogMessageInfoMultipleList_tmp") (lit "ULogMessageInfoMultipleList") None;
    SCreate (lit "ULogMessageInfoMultipleListElement_tmp") (mkTD
      [mkCD (lit "Id") AInt None true;
       mkCD (lit "SeriesIndex") AInt None false;
       mkCD (lit "Value") AText None false;
       mkCD (lit "ListId") AText (Some ((lit "ulogmessageinfomultiplelist"), true)) false]
      []);
    SCopy (lit "ULogMessageInfoMultipleListElement_tmp") (lit "ULogMessageInfoMultipleListElement") None;
    SCreate (lit "ULogInitialParameter_tmp") (mkTD
      [mkCD (lit "Key") AText None false;
       mkCD (lit "Value") ABlob None false;
       mkCD (lit "ULogId") AInt (Some ((lit "ulog"), true)) false]
      []);
    SCopy (lit "ULogInitialParameter_tmp") (lit "ULogInitialParameter") None;
    SCreate (lit "ULogChangedParameter_tmp") (mkTD
      [mkCD (lit "Timestamp") AReal None false;
       mkCD (lit "Key") AText None false;
       mkCD (lit "Value") ABlob None false;
       mkCD (lit "ULogId") AInt (Some ((lit "ulog"), true)) false]
      []);
    SCopy (lit "ULogChangedParameter_tmp") (lit "ULogChangedParameter") None;
    SCreate (lit "ULogDefaultParameter_tmp") (mkTD
      [mkCD (lit "DefaultType") AInt None false;
       mkCD (lit "Key") AText None false;
       mkCD (lit "Value") ABlob None false;
       mkCD (lit "ULogId") AInt (Some ((lit "ulog"), true)) false]
      []);
    SCopy (lit "ULogDefaultParameter_tmp") (lit "ULogDefaultParameter") None;
    SDrop (lit "ULog");
    SDrop (lit "ULogAppendedOffsets");
    SDrop (lit "ULogDataset");
    SDrop (lit "ULogField");
    SDrop (lit "ULogMessageDropout");
    SDrop (lit "ULogMessageFormat");
    SDrop (lit "ULogMessageFormatField");
    SDrop (lit "ULogMessageLogging");
    SDrop (lit "ULogMessageLoggingTagged");
    SDrop (lit "ULogMessageInfo");
    SDrop (lit "ULogMessageInfoMultiple");
    SDrop (lit "ULogMessageInfoMultipleList");
    SDrop (lit "ULogMessageInfoMultipleListElement");
    SDrop (lit "ULogInitialParameter");
    SDrop (lit "ULogChangedParameter");
    SDrop (lit "ULogDefaultParameter");
    SRename (lit "ULog_tmp") (lit "ULog");
    SRename (lit "ULogAppendedOffsets_tmp") (lit "ULogAppendedOffsets");
    SRename (lit "ULogDataset_tmp") (lit "ULogDataset");
    SRename (lit "ULogField_tmp") (lit "ULogField");
    SRename (lit "ULogMessageDropout_tmp") (lit "ULogMessageDropout");
    SRename (lit "ULogMessageFormat_tmp") (lit "ULogMessageFormat");
    SRename (lit "ULogMessageFormatField_tmp") (lit "ULogMessageFormatField");
    SRename (lit "ULogMessageLogging_tmp") (lit "ULogMessageLogging");
    SRename (lit "ULogMessageLoggingTagged_tmp") (lit "ULogMessageLoggingTagged");
    SRename (lit "ULogMessageInfo_tmp") (lit "ULogMessageInfo");
    SRename (lit "ULogMessageInfoMultiple_tmp") (lit "ULogMessageInfoMultiple");
    SRename (lit "ULogMessageInfoMultipleList_tmp") (lit "ULogMessageInfoMultipleList");
    SRename (lit "ULogMessageInfoMultipleListElement_tmp") (lit "ULogMessageInfoMultipleListElement");
    SRename (lit "ULogInitialParameter_tmp") (lit "ULogInitialParameter");
    SRename (lit "ULogChangedParameter_tmp") (lit "ULogChangedParameter");
    SRename (lit "ULogDefaultParameter_tmp") (lit "ULogDefaultParameter");
    SForeignKeys true;
    SCommit ].

(** pyulog/sql/pyulog.3.sql 1-3 *)
Definition script3 : list stmt :=
  [ SBegin;
    SAddCol (lit "ULogField") (mkCD (lit "ValueJson") ANum None false);
    SCommit ].

(** pyulog/sql/pyulog.4.sql 1-37 *)
Definition script4 : list stmt :=
  [ SBegin;
    SForeignKeys false;
    SRenameCol (lit "ULog") (lit "StartTimestamp") (lit "StartTimestamp_old");
    SAddCol (lit "ULog") (mkCD (lit "StartTimestamp") AInt None false);
    SCast (lit "ULog") (lit "StartTimestamp") (lit "StartTimestamp_old");
    SRenameCol (lit "ULog") (lit "LastTimestamp") (lit "LastTimestamp_old");
    SAddCol (lit "ULog") (mkCD (lit "LastTimestamp") AInt None false);
    SCast (lit "ULog") (lit "LastTimestamp") (lit "LastTimestamp_old");
    SRenameCol (lit "ULogMessageDropout") (lit "Timestamp") (lit "Timestamp_old");
    SAddCol (lit "ULogMessageDropout") (mkCD (lit "Timestamp") AInt None false);
    SCast (lit "ULogMessageDropout") (lit "Timestamp") (lit "Timestamp_old");
    SRenameCol (lit "ULogMessageDropout") (lit "Duration") (lit "Duration_old");
    SAddCol (lit "ULogMessageDropout") (mkCD (lit "Duration") AInt None false);
    SCast (lit "ULogMessageDropout") (lit "Duration") (lit "Duration_old");
    SRenameCol (lit "ULogMessageLogging") (lit "Timestamp") (lit "Timestamp_old");
    SAddCol (lit "ULogMessageLogging") (mkCD (lit "Timestamp") AInt None false);
    SCast (lit "ULogMessageLogging") (lit "Timestamp") (lit "Timestamp_old");
    SRenameCol (lit "ULogMessageLoggingTagged") (lit "Timestamp") (lit "Timestamp_old");
    SAddCol (lit "ULogMessageLoggingTagged") (mkCD (lit "Timestamp") AInt None false);
    SCast (lit "ULogMessageLoggingTagged") (lit "Timestamp") (lit "Timestamp_old");
    SRenameCol (lit "ULogChangedParameter") (lit "Timestamp") (lit "Timestamp_old");
    SAddCol (lit "ULogChangedParameter") (mkCD (lit "Timestamp") AInt None false);
    SCast (lit "ULogChangedParameter") (lit "Timestamp") (lit "Timestamp_old");
    SForeignKeys true;
    SCommit ].

(** pyulog/sql/pyulog.5.sql 1-17 *)
Definition script5 : list stmt :=
  [ SBegin;
    SIndex (lit "btree_ULogAppendedOffsets_ULogId") (lit "ULogAppendedOffsets") (lit "ULogId");
    SIndex (lit "btree_ULogDataset_ULogId") (lit "ULogDataset") (lit "ULogId");
    SIndex (lit "btree_ULogField_DatasetId") (lit "ULogField") (lit "DatasetId");
    SIndex (lit "btree_ULogMessageDropout_ULogId") (lit "ULogMessageDropout") (lit "ULogId");
    SIndex (lit "btree_ULogMessageFormat_ULogId") (lit "ULogMessageFormat") (lit "ULogId");
    SIndex (lit "btree_ULogMessageFormatField_MessageId") (lit "ULogMessageFormatField") (lit "MessageId");
    SIndex (lit "btree_ULogMessageLogging_ULogId") (lit "ULogMessageLogging") (lit "ULogId");
    SIndex (lit "btree_ULogMessageLoggingTagged_ULogId") (lit "ULogMessageLoggingTagged") (lit "ULogId");
    SIndex (lit "btree_ULogMessageInfo_ULogId") (lit "ULogMessageInfo") (lit "ULogId");
    SIndex (lit "btree_ULogMessageInfoMultiple_ULogId") (lit "ULogMessageInfoMultiple") (lit "ULogId");
    SIndex (lit "btree_ULogMessageInfoMultipleList_MessageId") (lit "ULogMessageInfoMultipleList") (lit "MessageId");
    SIndex (lit "btree_ULogMessageInfoMultipleListElement_ListId") (lit "ULogMessageInfoMultipleListElement") (lit "ListId");
    SIndex (lit "btree_ULogInitialParameter_ULogId") (lit "ULogInitialParameter") (lit "ULogId");
    SIndex (lit "btree_ULogChangedParameter_ULogId") (lit "ULogChangedParameter") (lit "ULogId");
    SIndex (lit "btree_ULogDefaultParameter_ULogId") (lit "ULogDefaultParameter") (lit "ULogId");
    SCommit ].
