(* Specification vocabulary for the commands that write one SEG Y file from
   another. *)
From Coq Require Import String ZArith List Bool.
From Verif Require Import Py PyFloat Packing Spec_Packing Formats FileIO Text Toolkit Spec_Segy Reader Transform Commands.
Import ListNotations.
Local Open Scope string_scope.
Open Scope list_scope.
Open Scope Z_scope.

(* create_reader(fh) for a file with contents d gives r *)
Definition reads (d : list Z) (r : reader) : Prop :=
  exists w, create_reader (mk_attrs false false true) None BinaryReelHeader TraceHeaderRev1 (Some Big) NoProgress None (mk_world (mk_file d 0) []) = (Ok r, w).

(* Reading the contents d, making a dataset of the reader and writing that to a
   new file gives the contents b. *)
Definition produces (native : endian) (make : dataset -> res dataset) (d b : list Z) : Prop :=
  exists r ds w, reads d r /\ make (reader_dataset native r (mk_file d 0)) = Ok ds /\
    write_segy ds None TraceHeaderRev1 Big NoProgress (mk_world (mk_file [] 0) []) = (Ok tt, w) /\ f_data (w_file w) = b.

(* the names of the sample types *)
Definition type_names : list (string * segytype) :=
  [("ibm", T_IBM); ("int32", T_INT32); ("int16", T_INT16); ("int8", T_INT8); ("float32", T_FLOAT32);
   ("nnint32", T_NNINT32); ("nnint16", T_NNINT16); ("nnint8", T_NNINT8)].

(* What the arguments of a command ask for: which dataset to make of that read
   from the file called inn, to be written to the file called out. *)
Inductive asks (parse : string -> option float) : command -> list string -> (dataset -> res dataset) -> string -> string -> Prop :=
| asks_copy inn out more : asks parse LoadSave (inn :: out :: more) (fun ds => Ok ds) inn out
| asks_convert n t inn out more : In (n, t) type_names -> out <> inn -> asks parse ConvertSampleType (n :: inn :: out :: more) (convert_ibm t) inn out
| asks_scale n f inn out more : parse n = Some f -> asks parse ScaleSamples (n :: inn :: out :: more) (fun ds => scaling ds f) inn out
| asks_coords n f inn out more : parse n = Some f -> asks parse ScaleSourceCoords (n :: inn :: out :: more) (fun ds => Ok (scaling_coords ds f)) inn out.

(* the exit codes of files that cannot be opened *)
Definition refusal (e : open_error) : Z := match e with NotFound | IsADirectory => 66 | NoPermission => 77 end.

(* s' is s but for the contents of the file o, which the path out leads to, made
   if need be. *)
Definition only_written (s : fs) (out : string) (o : Z) (b : list Z) (s' : fs) : Prop :=
  fs_data s' o = b /\ (forall j, j <> o -> fs_data s' j = fs_data s j) /\
  (forall n, n <> out -> fs_place s' n = fs_place s n) /\
  fs_place s' out = match fs_place s out with Nothing _ => Regular o true true | p => p end.

(* every file holds bytes *)
Definition sound (s : fs) : Prop := forall i, all_bytes (fs_data s i).
