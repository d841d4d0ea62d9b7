(** [load] with a look at the row counts.  Nothing here is in /repo: this is what
    [SFrame::load], read.rs:26-95, would be if it compared, before it returns, the rows the
    descriptors count with the [num_fres] of the header, and that with the bytes of the rows
    (a row has at least two). *)
From Verif Require Import Base Raw Read CountSpec.

Definition load_counted (check : bool) (md : mode) (e : endian) (bs : bytes) : outcome read_error sframe :=
  let* sf := load md e bs in
  if check && negb ((counted sf <=? sf_num_fres sf) && (2 * sf_num_fres sf <=? zlen (sf_fres sf)))
  then Err UnexpectedEof
  else Ok sf.
