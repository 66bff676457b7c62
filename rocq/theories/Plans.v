(* The commands of the examples that write a file (Commands.v), as the file they
   open for writing and what they do to it, so that they can be stopped.  No proofs
   here; that these are the commands of Commands.v is C139_plan. *)
From Coq Require Import String ZArith List Bool.
From Verif Require Import Py PyFloat Packing Formats FileIO Text Toolkit Reader Transform Commands Stops.
Import ListNotations.
Local Open Scope string_scope.
Open Scope list_scope.
Open Scope Z_scope.

(* How it ends and, if a file is opened for writing, which, and what is done to it
   from then on.
   [loadsave.py:37-42 convert_sample_type.py:55-64 scale_samples.py:49-55 scale_source_coords.py:57-63] *)
Definition transfer_plan (native : endian) (pr : progress_arg) (make : dataset -> res dataset) (s : fs) (inn out : string)
  : ending * option (string * Z * list op) :=
  match open_rb s inn with
  | inr e => (NotOpened e, None)
  | inl i =>
      match open_wb s out with
      | inr e => (NotOpened e, None)
      | inl o =>
          let in_file := mk_file (fs_data (fs_create s out o) i) 0 in
          match fst (create_reader file_opened None BinaryReelHeader TraceHeaderRev1 (Some Big) pr None (mk_world in_file [])) with
          | Err y => (Raised y, Some (out, o, []))
          | Ok r =>
              match make (reader_dataset native r in_file) with
              | Err y => (Raised y, Some (out, o, []))
              | Ok ds =>
                  let (l, x) := operations ds None TraceHeaderRev1 Big pr in
                  (match x with Ok _ => Finished | Err y => Raised y end, Some (out, o, l))
              end
          end
      end
  end.

(* [loadsave.py:45-69 convert_sample_type.py:67-103 scale_samples.py:58-81 scale_source_coords.py:66-89] *)
Definition main_plan (native : endian) (parse : string -> option float) (c : command) (argv : list string) (s : fs)
  : Z * option (string * Z * list op) :=
  let exec pr make inn out := let (x, p) := transfer_plan native pr make s inn out in (exit_code x, p) in
  match c, argv with
  | LoadSave, inn :: out :: _ => exec Callable (fun ds => Ok ds) inn out
  | ConvertSampleType, n :: inn :: out :: _ =>
      match type_named n with
      | Some t => if String.eqb out inn then (EX_USAGE, None) else exec NoProgress (convert_ibm t) inn out
      | None => (EX_USAGE, None)
      end
  | ScaleSamples, n :: inn :: out :: _ =>
      match parse n with Some f => exec NoProgress (fun ds => scaling ds f) inn out | None => (EX_USAGE, None) end
  | ScaleSourceCoords, n :: inn :: out :: _ =>
      match parse n with Some f => exec Callable (fun ds => Ok (scaling_coords ds f)) inn out | None => (EX_USAGE, None) end
  | _, _ => (EX_USAGE, None)
  end.
