(* Specification vocabulary for opening files with trace header formats of any
   kind. *)
From Coq Require Import String ZArith List Bool.
From Verif Require Import Py Util Catalog Packing Spec_Packing FileIO Text Toolkit Spec_Segy Reader Spec_Order.
Import ListNotations.
Local Open Scope string_scope.
Open Scope list_scope.
Open Scope Z_scope.

(* the fields create_reader looks at *)
Definition looked_at : list string := ["file_sequence_num"; "ensemble_num"; "num_samples"; "inline_number"; "crossline_number"].

(* A trace header format with these fields in the order of the standard; the
   number of samples may be of a signed type. *)
Definition ordered_format (c : fmt) : Prop :=
  format_ok c 240 /\ (forall n, In n looked_at -> has_field c n) /\
  forall a n b m z, looked_at = a ++ n :: b ++ m :: z -> before c n m.

(* Following the headers from p on leads to a header that leads back to itself. *)
Definition inside (ts : list tinfo) : Prop := Forall (fun t => 0 <= t_pos t) ts.
Definition goes_round (c : fmt) (e : endian) (bps : Z) (d : list Z) (p : Z) : Prop :=
  exists ts q round, scan c e bps d p ts q /\ scan c e bps d q round q /\ round <> [] /\ inside ts /\ inside round.

(* Two formats, the second with the fields create_reader looks at in the order
   of the standard: the n-th of them is in the n-th place in which the first
   format has one of these fields, and accepts what the n-th field of the first
   format accepts. *)
Definition seen_as (c c' : fmt) : Prop :=
  exists chosen placed chosen', chosen_as c looked_at chosen /\ placed_as chosen placed /\ chosen_as c' looked_at chosen' /\
    forall n f g f', nth_error chosen n = Some f -> nth_error placed n = Some g -> nth_error chosen' n = Some f' ->
      field_pos c' f' = field_pos c g /\ ft_ctype (fd_type f') = ft_ctype (fd_type g) /\
      forall v, in_ctype (ft_ctype (fd_type g)) v -> (accepts (fd_type f') v <-> accepts (fd_type f) v).

(* the same reader but for the format of its trace headers *)
Definition reads_headers_with (p : packer) (r : reader) : reader :=
  mk_reader (rd_kind r) (rd_text r) (rd_binary r) (rd_ext r) (rd_offsets r) (rd_lengths r) p (rd_encoding r) (rd_endian r) (rd_revision r) (rd_bps r).
