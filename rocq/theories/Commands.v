(* Model of the commands of the examples that read one SEG Y file and write
   another: what they do to the files of a file system, and the exit code.
   Simplifications: no other process touches the files meanwhile; the only
   failures of open() are a missing file or directory, a directory in place of a
   file, and missing permissions; reads and writes of an open file do not fail;
   what is printed is left out (see Indicator.v for the progress). *)
From Coq Require Import String ZArith List Bool.
From Verif Require Import Py PyFloat IbmFloat Packing Formats FileIO Text Toolkit Reader Transform.
Import ListNotations.
Local Open Scope string_scope.
Open Scope list_scope.
Open Scope Z_scope.

(* FileNotFoundError, IsADirectoryError, PermissionError *)
Inductive open_error : Set := NotFound | IsADirectory | NoPermission.

(* What a path leads to: a directory, an existing file with its identity (inode)
   and whether it may be read and written, or nothing; then either a file with
   the identity i is made when the path is opened for writing, or that fails. *)
Inductive place : Set :=
| Directory
| Regular (i : Z) (may_read may_write : bool)
| Nothing (made : Z + open_error).

(* Several paths may lead to one file. *)
Record fs : Set := mk_fs { fs_place : string -> place; fs_data : Z -> list Z }.

(* open(name, 'rb') *)
Definition open_rb (s : fs) (name : string) : Z + open_error :=
  match fs_place s name with
  | Directory => inr IsADirectory
  | Regular i may_read _ => if may_read then inl i else inr NoPermission
  | Nothing _ => inr NotFound
  end.

(* open(name, 'wb'): the identity of the file *)
Definition open_wb (s : fs) (name : string) : Z + open_error :=
  match fs_place s name with
  | Directory => inr IsADirectory
  | Regular i _ may_write => if may_write then inl i else inr NoPermission
  | Nothing made => made
  end.

(* the file i holds d *)
Definition fs_write (s : fs) (i : Z) (d : list Z) : fs :=
  mk_fs (fs_place s) (fun j => if j =? i then d else fs_data s j).

(* opening for writing empties the file; the path leads to it from now on *)
Definition fs_create (s : fs) (name : string) (i : Z) : fs :=
  mk_fs (fun n => if String.eqb n name then match fs_place s n with Nothing _ => Regular i true true | p => p end else fs_place s n)
    (fun j => if j =? i then [] else fs_data s j).

(* how a command ends: with the exception y, because a file cannot be opened, or
   normally *)
Inductive ending : Set := Finished | Raised (y : exn) | NotOpened (e : open_error).

Definition file_opened : file_attrs := mk_attrs false false true.

(* with open(inn, 'rb') as in_file, open(out, 'wb') as out_file:
       ds = make(create_reader(in_file))
       write_segy(out_file, ds)
   The reader sees the input file as it is once the output file has been opened.
   If both are the same file then it is empty and create_reader fails
   (C125_same_file_refuted), so that nothing is read while a file is written over.
   [loadsave.py:37-42 convert_sample_type.py:55-64 scale_samples.py:49-55 scale_source_coords.py:57-63] *)
Definition transfer (native : endian) (pr : progress_arg) (make : dataset -> res dataset) (s : fs) (inn out : string) : ending * fs :=
  match open_rb s inn with
  | inr e => (NotOpened e, s)
  | inl i =>
      match open_wb s out with
      | inr e => (NotOpened e, s)
      | inl o =>
          let s1 := fs_create s out o in
          let in_file := mk_file (fs_data s1 i) 0 in
          match fst (create_reader file_opened None BinaryReelHeader TraceHeaderRev1 (Some Big) pr None (mk_world in_file [])) with
          | Err y => (Raised y, s1)
          | Ok r =>
              match make (reader_dataset native r in_file) with
              | Err y => (Raised y, s1)
              | Ok ds =>
                  let (x, w) := write_segy ds None TraceHeaderRev1 Big pr (mk_world (mk_file (fs_data s1 o) 0) []) in
                  (match x with Ok _ => Finished | Err y => Raised y end, fs_write s1 o (f_data (w_file w)))
              end
          end
      end
  end.

(* sample_type = segy_reader.data_sample_format; if sample_type != 'ibm': raise RuntimeError; ConvertingDataset(segy_reader, t)
   [convert_sample_type.py:60-63] *)
Definition convert_ibm (t : segytype) (src : dataset) : res dataset :=
  do t0 <- ds_sample_format src ;;
  match t0 with T_IBM => converting src t | _ => Err RuntimeError end.

Inductive command : Set := LoadSave | ConvertSampleType | ScaleSamples | ScaleSourceCoords.

(* data_sample_format in SEG_Y_TYPE_DESCRIPTION, whose keys are strings
   [datatypes.py:25-33 datatypes.py:64-72] *)
Definition type_named (n : string) : option segytype :=
  if String.eqb n "ibm" then Some T_IBM else
  if String.eqb n "int32" then Some T_INT32 else
  if String.eqb n "nnint32" then Some T_NNINT32 else
  if String.eqb n "int16" then Some T_INT16 else
  if String.eqb n "nnint16" then Some T_NNINT16 else
  if String.eqb n "float32" then Some T_FLOAT32 else
  if String.eqb n "int8" then Some T_INT8 else
  if String.eqb n "nnint8" then Some T_NNINT8 else None.

(* os.EX_OK and its like *)
Definition EX_OK : Z := 0.
Definition EX_USAGE : Z := 64.
Definition EX_NOINPUT : Z := 66.
Definition EX_SOFTWARE : Z := 70.
Definition EX_NOPERM : Z := 77.

(* [loadsave.py:57-68] and the same lines of the others *)
Definition exit_code (x : ending) : Z :=
  match x with
  | Finished => EX_OK
  | NotOpened NotFound | NotOpened IsADirectory => EX_NOINPUT
  | NotOpened NoPermission => EX_NOPERM
  | Raised _ => EX_SOFTWARE
  end.

(* main(argv); parse is float() of a string, None where it raises ValueError
   [loadsave.py:45-69 convert_sample_type.py:67-103 scale_samples.py:58-81 scale_source_coords.py:66-89] *)
Definition main (native : endian) (parse : string -> option float) (c : command) (argv : list string) (s : fs) : Z * fs :=
  let exec pr make inn out := let (x, s') := transfer native pr make s inn out in (exit_code x, s') in
  match c, argv with
  | LoadSave, inn :: out :: _ => exec Callable (fun ds => Ok ds) inn out
  | ConvertSampleType, n :: inn :: out :: _ =>
      match type_named n with
      | Some t => if String.eqb out inn then (EX_USAGE, s) else exec NoProgress (convert_ibm t) inn out
      | None => (EX_USAGE, s)
      end
  | ScaleSamples, n :: inn :: out :: _ =>
      match parse n with Some f => exec NoProgress (fun ds => scaling ds f) inn out | None => (EX_USAGE, s) end
  | ScaleSourceCoords, n :: inn :: out :: _ =>
      match parse n with Some f => exec Callable (fun ds => Ok (scaling_coords ds f)) inn out | None => (EX_USAGE, s) end
  | _, _ => (EX_USAGE, s)
  end.
