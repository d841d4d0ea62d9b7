(** The stack probes of notes.md: the assembly of lines 12-17 and of lines 32-40, and a
    machine that runs it.  The addresses are those of the row in notes.md:22-24; every
    instruction takes as many bytes as its usual encoding, which is what makes the loop of the
    first probe as long as that row.

    Simplified: only the registers and the flag that the code uses, and memory as words.  All
    accesses of the two probes are at distances of a multiple of eight bytes from each other,
    so no two words overlap in part. *)
From Verif Require Import Base Raw Read Convert WalkSpec.
Open Scope Z_scope.
Open Scope list_scope.

Inductive reg : Type := RSP | RBP | R11.

(** The instructions used, in the order of Intel's syntax. *)
Inductive ins : Type :=
| Lea (d b : reg) (disp : Z)
| Sub (d : reg) (k : Z)
| Add (d : reg) (k : Z)
| OrMem (b : reg) (k : Z)
| Cmp (a b : reg)
| Jne (target : Z)
| Push (r : reg)
| Mov (d b : reg) (disp : Z).

Record cpu : Type := Cpu {
  c_pc : Z; c_sp : Z; c_fp : Z; c_r11 : Z; c_zf : bool; c_mem : Z -> Z }.

Definition value (x : cpu) (r : reg) : Z := match r with RSP => c_sp x | RBP => c_fp x | R11 => c_r11 x end.
Definition set (r : reg) (v : Z) (x : cpu) : cpu :=
  match r with
  | RSP => Cpu (c_pc x) v (c_fp x) (c_r11 x) (c_zf x) (c_mem x)
  | RBP => Cpu (c_pc x) (c_sp x) v (c_r11 x) (c_zf x) (c_mem x)
  | R11 => Cpu (c_pc x) (c_sp x) (c_fp x) v (c_zf x) (c_mem x)
  end.
Definition set_zf (z : bool) (x : cpu) : cpu := Cpu (c_pc x) (c_sp x) (c_fp x) (c_r11 x) z (c_mem x).
Definition goto (pc : Z) (x : cpu) : cpu := Cpu pc (c_sp x) (c_fp x) (c_r11 x) (c_zf x) (c_mem x).
Definition store (a v : Z) (x : cpu) : cpu :=
  Cpu (c_pc x) (c_sp x) (c_fp x) (c_r11 x) (c_zf x) (fun b => if b =? a then v else c_mem x b).

(** One instruction; [next] is the address behind it. *)
Definition exec (i : ins) (next : Z) (x : cpu) : cpu :=
  let y := goto next x in
  match i with
  | Lea d b disp => set d (plus64 (value x b) disp) y
  | Sub d k => let v := plus64 (value x d) (- k) in set_zf (v =? 0) (set d v y)
  | Add d k => let v := plus64 (value x d) k in set_zf (v =? 0) (set d v y)
  | OrMem b k => let v := Z.lor (c_mem x (value x b)) k in set_zf (v =? 0) (store (value x b) v y)
  | Cmp a b => set_zf (plus64 (value x a) (- value x b) =? 0) y
  | Jne target => if c_zf x then y else goto target x
  | Push r => let a := plus64 (c_sp x) (-8) in set RSP a (store a (value x r) y)
  | Mov d b disp => set d (c_mem x (plus64 (value x b) disp)) y
  end.

(** Instructions with their lengths, one behind the other. *)
Definition code : Type := list (Z * ins).
Fixpoint fetch (l : code) (at_ pc : Z) : option (Z * ins) :=
  match l with
  | [] => None
  | (len, i) :: t => if at_ =? pc then Some (at_ + len, i) else fetch t (at_ + len) pc
  end.
Definition step (start : Z) (l : code) (x : cpu) : option cpu :=
  match fetch l start (c_pc x) with Some (next, i) => Some (exec i next x) | None => None end.

(** Where both begin. *)
Definition probe_start : Z := 0x58f4.

(** notes.md:12-17 *)
Definition r11_probe : code :=
  [ (8, Lea R11 RSP (-0x4000));
    (7, Sub RSP 0x1000);
    (5, OrMem RSP 0);
    (3, Cmp RSP R11);
    (2, Jne 0x58fc) ].

(** notes.md:32-40; the last instruction loads from [rsp + disp], in the notes [rsp-0x4000]. *)
Definition rbp_probe (disp : Z) : code :=
  [ (1, Push RBP);
    (8, Lea RBP RSP (-0x4000));
    (7, Sub RSP 0x1000);
    (5, OrMem RSP 0);
    (3, Cmp RSP RBP);
    (2, Jne 0x58fd);
    (4, Add RSP 8);
    (8, Mov RBP RSP disp) ].
Definition notes_disp : Z := -0x4000.
(** Where [push rbp] has put it. *)
Definition right_disp : Z := 0x3ff8.
