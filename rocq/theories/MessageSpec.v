(** What a service is: its request reaches the server as the same structure with the same values,
    and its response the client.  The standard's identifiers and fields are in StructSpec.v. *)
From Coq Require Import ZArith List String.
From Verif Require Import Bytes CodecSpec Prim Value ValueSpec Messages StructSpec.
Import ListNotations.
Open Scope Z_scope.

(** [name] is the structure of the library; [u1] and [u2] are the namespace tables of the two sides. *)
Definition carries (write : list bytes -> string -> list val -> option bytes)
                   (read : list bytes -> reader (string * list val)) (name : string) (id : Z) (fields : list ty) : Prop :=
  forall u1 u2 vals, wzip (wf (std_env u2) false) fields vals ->
    exists body, encode (std_env u1) (TStruct fields) (VStruct vals) = Some body /\
      write u1 name vals = Some (write_nodeid (NNum 0 id) ++ body) /\
      reads_back (read u2) (write_nodeid (NNum 0 id) ++ body) (name, map norm vals).

(** Services this server does not offer *)
Definition not_offered : list string :=
  ["FindServersOnNetwork"; "RegisterServer"; "RegisterServer2"; "AddNodes"; "AddReferences"; "DeleteNodes";
   "DeleteReferences"; "QueryFirst"; "QueryNext"; "HistoryUpdate"; "TransferSubscriptions"]%string.

(** Structures with a Guid inside: the codec has no encoder for Guid fields *)
Definition without_encoder : list string :=
  ["FieldMetaData"; "DataSetMetaDataType"; "PublishedDataSetDataType"; "FieldTargetDataType"; "TargetVariablesDataType";
   "UADPDataSetReaderMessageDataType"; "DataSetReaderDataType"; "ReaderGroupDataType"; "PubSubConnectionDataType";
   "PubSubConfigurationDataType"]%string.
