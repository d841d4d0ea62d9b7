(** The derived [Debug] implementations of the builders, of their errors and of
    the raw structures. *)
From Coq Require Import String.
From Verif Require Import Base BTree Raw Read Write Text Debug.
Local Open Scope string_scope.

(** ** Builders *)

(** [BTreeMap]: [f.debug_map().entries(self.iter())]; the keys are integers. *)
Definition btree_debug {A} (d : A -> dbg) (m : btree A) : dbg :=
  DMap (map (fun kv => (fmt_dec (fst kv), d (snd kv))) m).

(** [SFrameOptions], write.rs:13-19.  [NonZeroI8] prints as its value, [Flags]
    (raw/mod.rs:55-69) as a tuple of its bits. *)
Definition options_debug (dt : debug_texts) (o : sframe_options) : dbg :=
  DStruct "SFrameOptions"
    [("flags", DTuple "Flags" [int_debug (so_flags o)]);
     ("abi_arch", dt_abi dt (so_abi o));
     ("fixed_fp_offset", option_debug int_debug (so_fixed_fp o));
     ("fixed_ra_offset", option_debug int_debug (so_fixed_ra o))].

(** [FrameRowOffsets], write.rs:546-577. *)
Definition offsets_debug (o : row_offsets) : dbg :=
  DStruct "FrameRowOffsets"
    [("cfa", int_debug (ro_cfa o));
     ("ra", option_debug int_debug (ro_ra o));
     ("fp", option_debug int_debug (ro_fp o))].

(** [FrameRowBuilder], write.rs:494-500. *)
Definition row_debug (r : row) : dbg :=
  DStruct "FrameRowBuilder"
    [("start_address", int_debug (r_start r));
     ("offsets", option_debug offsets_debug (r_offsets r));
     ("mangled_ra_p", bool_debug (r_mangled r));
     ("cfa_base_reg_id", base_reg_debug (r_base r))].

(** [FuncDescBuilder], write.rs:344-352. *)
Definition fdb_debug (dt : debug_texts) (b : fdb) : dbg :=
  DStruct "FuncDescBuilder"
    [("options", options_debug dt (fb_options b));
     ("start_address", int_debug (fb_start b));
     ("size", int_debug (fb_size b));
     ("rep_size", option_debug int_debug (fb_rep_size b));
     ("pauth_key", pauth_debug (fb_pauth b));
     ("fres", btree_debug row_debug (fb_fres b))].

(** [SFrameBuilder], write.rs:67-71. *)
Definition sfb_debug (dt : debug_texts) (s : sfb) : dbg :=
  DStruct "SFrameBuilder"
    [("options", options_debug dt (sb_options s));
     ("fdes", btree_debug (fdb_debug dt) (sb_fdes s))].

(** [format!("{:?}", builder)] and [format!("{:#?}", builder)]. *)
Definition builder_text (alternate : bool) (dt : debug_texts) (s : sfb) : string := print_debug alternate (sfb_debug dt s).

(** ** Errors *)

(** [FrameRowError], write.rs:599-653. *)
Definition row_error_debug (er : row_error) : dbg :=
  DLeaf (match er with
         | StartAddressTooLarge => "StartAddressTooLarge"
         | StartAddressLargerThanRepSize => "StartAddressLargerThanRepSize"
         | StartAddressOutsideFde => "StartAddressOutsideFde"
         | MissingRaOffset => "MissingRaOffset"
         | MissingFpOffset => "MissingFpOffset"
         | UnexpectedRaOffset => "UnexpectedRaOffset"
         | UnexpectedFpOffset => "UnexpectedFpOffset"
         | DuplicateRow => "DuplicateRow"
         end).
(** [EmitError], write.rs:687-701. *)
Definition emit_error_debug (er : emit_error) : dbg :=
  DLeaf (match er with OverlappingFdes => "OverlappingFdes" | SectionTooLarge => "SectionTooLarge" end).

(** ** Raw structures *)

(** [U32] and [I32] (zerocopy). *)
Record word_texts : Type := WordTexts {
  wt_u32 : Z -> dbg;
  wt_i32 : Z -> dbg }.

(** [v2::Header], raw/v2.rs:17-53. *)
Definition header_debug (dt : debug_texts) (wt : word_texts) (h : header) : dbg :=
  DStruct "Header"
    [("preamble", preamble_debug dt (h_preamble h));
     ("abi_arch", dt_abi dt (h_abi_arch h));
     ("fixed_fp_offset", int_debug (h_fixed_fp_offset h));
     ("fixed_ra_offset", int_debug (h_fixed_ra_offset h));
     ("auxhdr_len", int_debug (h_auxhdr_len h));
     ("num_fdes", wt_u32 wt (h_num_fdes h));
     ("num_fres", wt_u32 wt (h_num_fres h));
     ("fre_len", wt_u32 wt (h_fre_len h));
     ("fdeoff", wt_u32 wt (h_fdeoff h));
     ("freoff", wt_u32 wt (h_freoff h))].

(** [FdeInfo], raw/v2.rs:104-106. *)
Definition fde_info_debug (i : Z) : dbg := DTuple "FdeInfo" [int_debug i].

(** [v1::FuncDescEntry], raw/v1.rs:19-41. *)
Definition fde1_debug (wt : word_texts) (f : raw_fde1) : dbg :=
  DStruct "FuncDescEntry"
    [("start_address", wt_i32 wt (f1_start_address f));
     ("size", wt_u32 wt (f1_size f));
     ("start_fre_off", wt_u32 wt (f1_start_fre_off f));
     ("num_fres", wt_u32 wt (f1_num_fres f));
     ("info", fde_info_debug (f1_info f))].
(** [v2::FuncDescEntry], raw/v2.rs:73-102. *)
Definition fde2_debug (dt : debug_texts) (wt : word_texts) (f : raw_fde2) : dbg :=
  DStruct "FuncDescEntry"
    [("start_address", wt_i32 wt (f2_start_address f));
     ("size", wt_u32 wt (f2_size f));
     ("start_fre_off", wt_u32 wt (f2_start_fre_off f));
     ("num_fres", wt_u32 wt (f2_num_fres f));
     ("info", fde_info_debug (f2_info f));
     ("rep_size", int_debug (f2_rep_size f));
     ("_padding2", dt_u16 dt (f2_padding f))].
