(** The tables of a database at schema version 5 (pyulog/sql/pyulog.1.sql to pyulog.5.sql together),
    written out.  ProofsMigrate.v proves that running the scripts gives exactly these. *)
From Verif Require Import Base Dict Sql.

(** pyulog.1.sql 2, pyulog.2.sql 4, pyulog.4.sql 8-14 *)
Definition c_ulog : list coldef :=
  [mkCD (lit "Id") AInt None true;
   mkCD (lit "SHA256Sum") AText None false;
   mkCD (lit "FileVersion") AInt None false;
   mkCD (lit "StartTimestamp_old") AReal None false;
   mkCD (lit "LastTimestamp_old") AReal None false;
   mkCD (lit "CompatFlags") AText None false;
   mkCD (lit "IncompatFlags") AText None false;
   mkCD (lit "SyncCount") AInt None false;
   mkCD (lit "HasSync") ANum None false;
   mkCD (lit "StartTimestamp") AInt None false;
   mkCD (lit "LastTimestamp") AInt None false].
(** UNIQUE constraints: pyulog.2.sql 4 *)
Definition t_ulog : tabledef := mkTD c_ulog [[lit "SHA256Sum"]].
(** pyulog.1.sql 13, pyulog.2.sql 18 *)
Definition c_ulogappendedoffsets : list coldef :=
  [mkCD (lit "SeriesIndex") AInt None false;
   mkCD (lit "Offset") AInt None false;
   mkCD (lit "ULogId") AInt (Some (lit "ulog", true)) false].
(** UNIQUE constraints: pyulog.2.sql 18 *)
Definition t_ulogappendedoffsets : tabledef := mkTD c_ulogappendedoffsets [].
(** pyulog.1.sql 19, pyulog.2.sql 25 *)
Definition c_ulogdataset : list coldef :=
  [mkCD (lit "Id") AInt None true;
   mkCD (lit "DatasetName") AText None false;
   mkCD (lit "MultiId") AInt None false;
   mkCD (lit "MessageId") AInt None false;
   mkCD (lit "TimestampIndex") AInt None false;
   mkCD (lit "ULogId") AInt (Some (lit "ulog", true)) false].
(** UNIQUE constraints: pyulog.2.sql 25 *)
Definition t_ulogdataset : tabledef := mkTD c_ulogdataset [[lit "ULogId"; lit "DatasetName"; lit "MultiId"]].
(** pyulog.1.sql 29, pyulog.2.sql 36, pyulog.3.sql 2 *)
Definition c_ulogfield : list coldef :=
  [mkCD (lit "Id") AInt None true;
   mkCD (lit "TopicName") AText None false;
   mkCD (lit "DataType") AText None false;
   mkCD (lit "ValueArray") ABlob None false;
   mkCD (lit "DatasetId") AInt (Some (lit "ulogdataset", true)) false;
   mkCD (lit "ValueJson") ANum None false].
(** UNIQUE constraints: pyulog.2.sql 36 *)
Definition t_ulogfield : tabledef := mkTD c_ulogfield [].
(** pyulog.1.sql 39, pyulog.2.sql 46, pyulog.4.sql 16-22 *)
Definition c_ulogmessagedropout : list coldef :=
  [mkCD (lit "Timestamp_old") AReal None false;
   mkCD (lit "Duration_old") AReal None false;
   mkCD (lit "ULogId") AInt (Some (lit "ulog", true)) false;
   mkCD (lit "Timestamp") AInt None false;
   mkCD (lit "Duration") AInt None false].
(** UNIQUE constraints: pyulog.2.sql 46 *)
Definition t_ulogmessagedropout : tabledef := mkTD c_ulogmessagedropout [].
(** pyulog.1.sql 45, pyulog.2.sql 53 *)
Definition c_ulogmessageformat : list coldef :=
  [mkCD (lit "Id") AInt None true;
   mkCD (lit "Name") AText None false;
   mkCD (lit "ULogId") AInt (Some (lit "ulog", true)) false].
(** UNIQUE constraints: pyulog.2.sql 53 *)
Definition t_ulogmessageformat : tabledef := mkTD c_ulogmessageformat [].
(** pyulog.1.sql 51, pyulog.2.sql 60 *)
Definition c_ulogmessageformatfield : list coldef :=
  [mkCD (lit "FieldType") AText None false;
   mkCD (lit "ArraySize") AInt None false;
   mkCD (lit "Name") AText None false;
   mkCD (lit "MessageId") AInt (Some (lit "ulogmessageformat", true)) false].
(** UNIQUE constraints: pyulog.2.sql 60 *)
Definition t_ulogmessageformatfield : tabledef := mkTD c_ulogmessageformatfield [].
(** pyulog.1.sql 58, pyulog.2.sql 68, pyulog.4.sql 24-26 *)
Definition c_ulogmessagelogging : list coldef :=
  [mkCD (lit "LogLevel") AInt None false;
   mkCD (lit "Timestamp_old") AReal None false;
   mkCD (lit "Message") AText None false;
   mkCD (lit "ULogId") AInt (Some (lit "ulog", true)) false;
   mkCD (lit "Timestamp") AInt None false].
(** UNIQUE constraints: pyulog.2.sql 68 *)
Definition t_ulogmessagelogging : tabledef := mkTD c_ulogmessagelogging [].
(** pyulog.1.sql 65, pyulog.2.sql 76, pyulog.4.sql 28-30 *)
Definition c_ulogmessageloggingtagged : list coldef :=
  [mkCD (lit "LogLevel") AInt None false;
   mkCD (lit "Timestamp_old") AReal None false;
   mkCD (lit "Tag") AInt None false;
   mkCD (lit "Message") AText None false;
   mkCD (lit "ULogId") AInt (Some (lit "ulog", true)) false;
   mkCD (lit "Timestamp") AInt None false].
(** UNIQUE constraints: pyulog.2.sql 76 *)
Definition t_ulogmessageloggingtagged : tabledef := mkTD c_ulogmessageloggingtagged [].
(** pyulog.1.sql 73, pyulog.2.sql 85 *)
Definition c_ulogmessageinfo : list coldef :=
  [mkCD (lit "Key") AText None false;
   mkCD (lit "Typename") AText None false;
   mkCD (lit "Value") ABlob None false;
   mkCD (lit "ULogId") AInt (Some (lit "ulog", true)) false].
(** UNIQUE constraints: pyulog.2.sql 85 *)
Definition t_ulogmessageinfo : tabledef := mkTD c_ulogmessageinfo [].
(** pyulog.1.sql 80, pyulog.2.sql 93 *)
Definition c_ulogmessageinfomultiple : list coldef :=
  [mkCD (lit "Id") AInt None true;
   mkCD (lit "Key") AText None false;
   mkCD (lit "Typename") AText None false;
   mkCD (lit "ULogId") AInt (Some (lit "ulog", true)) false].
(** UNIQUE constraints: pyulog.2.sql 93 *)
Definition t_ulogmessageinfomultiple : tabledef := mkTD c_ulogmessageinfomultiple [].
(** pyulog.1.sql 86, pyulog.2.sql 101 *)
Definition c_ulogmessageinfomultiplelist : list coldef :=
  [mkCD (lit "Id") AInt None true;
   mkCD (lit "SeriesIndex") AInt None false;
   mkCD (lit "MessageId") AText (Some (lit "ulogmessageinfomultiple", true)) false].
(** UNIQUE constraints: pyulog.2.sql 101 *)
Definition t_ulogmessageinfomultiplelist : tabledef := mkTD c_ulogmessageinfomultiplelist [].
(** pyulog.1.sql 91, pyulog.2.sql 108 *)
Definition c_ulogmessageinfomultiplelistelement : list coldef :=
  [mkCD (lit "Id") AInt None true;
   mkCD (lit "SeriesIndex") AInt None false;
   mkCD (lit "Value") AText None false;
   mkCD (lit "ListId") AText (Some (lit "ulogmessageinfomultiplelist", true)) false].
(** UNIQUE constraints: pyulog.2.sql 108 *)
Definition t_ulogmessageinfomultiplelistelement : tabledef := mkTD c_ulogmessageinfomultiplelistelement [].
(** pyulog.1.sql 98, pyulog.2.sql 116 *)
Definition c_uloginitialparameter : list coldef :=
  [mkCD (lit "Key") AText None false;
   mkCD (lit "Value") ABlob None false;
   mkCD (lit "ULogId") AInt (Some (lit "ulog", true)) false].
(** UNIQUE constraints: pyulog.2.sql 116 *)
Definition t_uloginitialparameter : tabledef := mkTD c_uloginitialparameter [].
(** pyulog.1.sql 104, pyulog.2.sql 123, pyulog.4.sql 32-34 *)
Definition c_ulogchangedparameter : list coldef :=
  [mkCD (lit "Timestamp_old") AReal None false;
   mkCD (lit "Key") AText None false;
   mkCD (lit "Value") ABlob None false;
   mkCD (lit "ULogId") AInt (Some (lit "ulog", true)) false;
   mkCD (lit "Timestamp") AInt None false].
(** UNIQUE constraints: pyulog.2.sql 123 *)
Definition t_ulogchangedparameter : tabledef := mkTD c_ulogchangedparameter [].
(** pyulog.1.sql 111, pyulog.2.sql 131 *)
Definition c_ulogdefaultparameter : list coldef :=
  [mkCD (lit "DefaultType") AInt None false;
   mkCD (lit "Key") AText None false;
   mkCD (lit "Value") ABlob None false;
   mkCD (lit "ULogId") AInt (Some (lit "ulog", true)) false].
(** UNIQUE constraints: pyulog.2.sql 131 *)
Definition t_ulogdefaultparameter : tabledef := mkTD c_ulogdefaultparameter [].
(** All tables, in the order of pyulog.2.sql 156-171 *)
Definition v5_defs : dict str tabledef :=
  [(lit "ulog", t_ulog);
   (lit "ulogappendedoffsets", t_ulogappendedoffsets);
   (lit "ulogdataset", t_ulogdataset);
   (lit "ulogfield", t_ulogfield);
   (lit "ulogmessagedropout", t_ulogmessagedropout);
   (lit "ulogmessageformat", t_ulogmessageformat);
   (lit "ulogmessageformatfield", t_ulogmessageformatfield);
   (lit "ulogmessagelogging", t_ulogmessagelogging);
   (lit "ulogmessageloggingtagged", t_ulogmessageloggingtagged);
   (lit "ulogmessageinfo", t_ulogmessageinfo);
   (lit "ulogmessageinfomultiple", t_ulogmessageinfomultiple);
   (lit "ulogmessageinfomultiplelist", t_ulogmessageinfomultiplelist);
   (lit "ulogmessageinfomultiplelistelement", t_ulogmessageinfomultiplelistelement);
   (lit "uloginitialparameter", t_uloginitialparameter);
   (lit "ulogchangedparameter", t_ulogchangedparameter);
   (lit "ulogdefaultparameter", t_ulogdefaultparameter)].
