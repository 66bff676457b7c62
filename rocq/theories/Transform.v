(* Model of the transforming datasets of the examples: a DelegatingDataset
   (dataset.py:100-149) that overrides some of its members and is then written.
   Command lines, exit codes and the opening of files are left out. *)
From Coq Require Import String ZArith List Bool.
From Verif Require Import Py PyFloat IbmFloat IbmNumber Packing Formats FileIO Text Toolkit Reader FieldTypes.
Import ListNotations.
Local Open Scope string_scope.
Open Scope list_scope.
Open Scope Z_scope.

(* SEG_Y_TYPE_TO_DATA_SAMPLE_FORMAT[t]
   [datatypes.py:47] *)
Definition format_for (t : segytype) : res Z :=
  match t with
  | T_IBM => Ok 1 | T_INT32 => Ok 2 | T_INT16 => Ok 3 | T_FLOAT32 => Ok 5 | T_INT8 => Ok 8
  | _ => Err KeyError
  end.

(* LIMITS[t] of the integer types
   [datatypes.py:109-118] *)
Definition sample_limits (t : segytype) : Z * Z :=
  match t with
  | T_INT32 => limits IT_INT32 | T_NNINT32 => limits IT_NNINT32
  | T_INT16 => limits IT_INT16 | T_NNINT16 => limits IT_NNINT16
  | T_INT8 => limits IT_INT8 | T_NNINT8 => limits IT_NNINT8
  | _ => (0, 0)
  end.
(* 3.402823e38 and its negative as doubles
   [datatypes.py:115] *)
Definition FLOAT32_MAX : float := S754_finite false 9007197483358500 75.
Definition FLOAT32_MIN : float := S754_finite true 9007197483358500 75.
(* LIMITS[t] of the floating types
   [datatypes.py:110, 115] *)
Definition float_limits (t : segytype) : float * float :=
  match t with
  | T_IBM => (MIN_IBM_FLOAT, MAX_IBM_FLOAT)
  | _ => (FLOAT32_MIN, FLOAT32_MAX)
  end.

(* float(x)
   [datatypes.py:120-129, PY_TYPES] *)
Definition real_float (s : real) : res float :=
  match s with RFloat f => Ok f | RInt n => f_of_int n | RIbm w => ibm_float w end.

(* max(lo, min(hi, k)) of ints and of floats
   [convert_sample_type.py:42, scale_samples.py:42] *)
Definition clip (lo hi k : Z) : Z := Z.max lo (Z.min hi k).
Definition f_clip (lo hi x : float) : float :=
  let y := if f_lt x hi then x else hi in if f_lt lo y then y else lo.

(* ConvertingDataset._transform
   [convert_sample_type.py:38-44] *)
Definition convert_sample (t : segytype) (s : real) : res real :=
  match t with
  | T_INT8 | T_INT16 | T_INT32 => do k <- int_of s ;; Ok (RInt (clip (fst (sample_limits t)) (snd (sample_limits t)) k))
  | T_FLOAT32 | T_IBM => do f <- real_float s ;; Ok (RFloat f)
  | _ => do k <- int_of s ;; Ok (RInt k)
  end.

(* ConvertingDataset(src, t)
   [convert_sample_type.py:26-52] *)
Definition converting (src : dataset) (t : segytype) : res dataset :=
  do code <- format_for t ;;
  do bin <- hdr_copy (ds_binary src) [("data_sample_format", code)] ;;
  Ok (mk_dataset (ds_text src) bin (ds_ext src) (ds_encoding src) (ds_num_traces src) (ds_trace_indexes src)
    (fun k => ds_trace_header src k)
    (fun k a b => do ss <- ds_trace_samples src k a b ;; map_res (convert_sample t) ss)
    (sample_format bin) (ds_dimensionality src)).

(* sample * scale_factor
   [scale_samples.py:36] *)
Definition real_times (s : real) (f : float) : res real :=
  match s with
  | RInt n => do g <- f_of_int n ;; Ok (RFloat (f_mul g f))
  | RFloat g => Ok (RFloat (f_mul g f))
  | RIbm w => do p <- num_mul (NIbm w) (NFloat f) ;;
      Ok (match p with NFloat g => RFloat g | NInt n => RInt n | NIbm v => RIbm v end)
  end.

(* ScaledSamplesDataset._transform
   [scale_samples.py:34-43] *)
Definition scale_sample (t : segytype) (f : float) (s : real) : res real :=
  do p <- real_times s f ;;
  match t with
  | T_FLOAT32 | T_IBM => do g <- real_float p ;; Ok (RFloat (f_clip (fst (float_limits t)) (snd (float_limits t)) g))
  | _ => do k <- int_of p ;; Ok (RInt (clip (fst (sample_limits t)) (snd (sample_limits t)) k))
  end.

(* ScaledSamplesDataset(src, f)
   [scale_samples.py:26-46] *)
Definition scaling (src : dataset) (f : float) : res dataset :=
  do t <- ds_sample_format src ;;
  Ok (mk_dataset (ds_text src) (ds_binary src) (ds_ext src) (ds_encoding src) (ds_num_traces src) (ds_trace_indexes src)
    (fun k => ds_trace_header src k)
    (fun k a b => do ss <- ds_trace_samples src k a b ;; map_res (scale_sample t f) ss)
    (sample_format (ds_binary src)) (ds_dimensionality src)).

(* header.n *= f
   [scale_source_coords.py:50-51] *)
Definition scale_field (f : float) (h : header) (n : string) : res header :=
  do v <- hdr_get h n ;; do p <- real_times (RInt v) f ;; hdr_assign h n p.

(* ScaledCoordinatesDataset(src, f)
   [scale_source_coords.py:36-54] *)
Definition scaling_coords (src : dataset) (f : float) : dataset :=
  mk_dataset (ds_text src) (ds_binary src) (ds_ext src) (ds_encoding src) (ds_num_traces src) (ds_trace_indexes src)
    (fun k => do h <- ds_trace_header src k ;; do h' <- scale_field f h "source_x" ;; scale_field f h' "source_y")
    (fun k a b => ds_trace_samples src k a b)
    (sample_format (ds_binary src)) (ds_dimensionality src).
