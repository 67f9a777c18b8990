(** Model of QDPUtil::crc32, lib/qdp_crc32.cc, and of QDPUtil::byte_swap and big_endian,
    lib/qdp_byteorder.cc.  Bytes are numbers below 256, n_uint32_t words numbers below 2^32. *)
From Coq Require Import List Arith NArith Bool.
From Verif Require Import Base.
Import ListNotations.
Local Open Scope N_scope.

(** ** lib/qdp_crc32.cc *)

(** crc_table, 110-163: the literal table, compiled in unless DYNAMIC_CRC_TABLE is defined. *)
Definition crc_table : list N :=
  [0x00000000; 0x77073096; 0xee0e612c; 0x990951ba; 0x076dc419; 0x706af48f; 0xe963a535; 0x9e6495a3;
   0x0edb8832; 0x79dcb8a4; 0xe0d5e91e; 0x97d2d988; 0x09b64c2b; 0x7eb17cbd; 0xe7b82d07; 0x90bf1d91;
   0x1db71064; 0x6ab020f2; 0xf3b97148; 0x84be41de; 0x1adad47d; 0x6ddde4eb; 0xf4d4b551; 0x83d385c7;
   0x136c9856; 0x646ba8c0; 0xfd62f97a; 0x8a65c9ec; 0x14015c4f; 0x63066cd9; 0xfa0f3d63; 0x8d080df5;
   0x3b6e20c8; 0x4c69105e; 0xd56041e4; 0xa2677172; 0x3c03e4d1; 0x4b04d447; 0xd20d85fd; 0xa50ab56b;
   0x35b5a8fa; 0x42b2986c; 0xdbbbc9d6; 0xacbcf940; 0x32d86ce3; 0x45df5c75; 0xdcd60dcf; 0xabd13d59;
   0x26d930ac; 0x51de003a; 0xc8d75180; 0xbfd06116; 0x21b4f4b5; 0x56b3c423; 0xcfba9599; 0xb8bda50f;
   0x2802b89e; 0x5f058808; 0xc60cd9b2; 0xb10be924; 0x2f6f7c87; 0x58684c11; 0xc1611dab; 0xb6662d3d;
   0x76dc4190; 0x01db7106; 0x98d220bc; 0xefd5102a; 0x71b18589; 0x06b6b51f; 0x9fbfe4a5; 0xe8b8d433;
   0x7807c9a2; 0x0f00f934; 0x9609a88e; 0xe10e9818; 0x7f6a0dbb; 0x086d3d2d; 0x91646c97; 0xe6635c01;
   0x6b6b51f4; 0x1c6c6162; 0x856530d8; 0xf262004e; 0x6c0695ed; 0x1b01a57b; 0x8208f4c1; 0xf50fc457;
   0x65b0d9c6; 0x12b7e950; 0x8bbeb8ea; 0xfcb9887c; 0x62dd1ddf; 0x15da2d49; 0x8cd37cf3; 0xfbd44c65;
   0x4db26158; 0x3ab551ce; 0xa3bc0074; 0xd4bb30e2; 0x4adfa541; 0x3dd895d7; 0xa4d1c46d; 0xd3d6f4fb;
   0x4369e96a; 0x346ed9fc; 0xad678846; 0xda60b8d0; 0x44042d73; 0x33031de5; 0xaa0a4c5f; 0xdd0d7cc9;
   0x5005713c; 0x270241aa; 0xbe0b1010; 0xc90c2086; 0x5768b525; 0x206f85b3; 0xb966d409; 0xce61e49f;
   0x5edef90e; 0x29d9c998; 0xb0d09822; 0xc7d7a8b4; 0x59b33d17; 0x2eb40d81; 0xb7bd5c3b; 0xc0ba6cad;
   0xedb88320; 0x9abfb3b6; 0x03b6e20c; 0x74b1d29a; 0xead54739; 0x9dd277af; 0x04db2615; 0x73dc1683;
   0xe3630b12; 0x94643b84; 0x0d6d6a3e; 0x7a6a5aa8; 0xe40ecf0b; 0x9309ff9d; 0x0a00ae27; 0x7d079eb1;
   0xf00f9344; 0x8708a3d2; 0x1e01f268; 0x6906c2fe; 0xf762575d; 0x806567cb; 0x196c3671; 0x6e6b06e7;
   0xfed41b76; 0x89d32be0; 0x10da7a5a; 0x67dd4acc; 0xf9b9df6f; 0x8ebeeff9; 0x17b7be43; 0x60b08ed5;
   0xd6d6a3e8; 0xa1d1937e; 0x38d8c2c4; 0x4fdff252; 0xd1bb67f1; 0xa6bc5767; 0x3fb506dd; 0x48b2364b;
   0xd80d2bda; 0xaf0a1b4c; 0x36034af6; 0x41047a60; 0xdf60efc3; 0xa867df55; 0x316e8eef; 0x4669be79;
   0xcb61b38c; 0xbc66831a; 0x256fd2a0; 0x5268e236; 0xcc0c7795; 0xbb0b4703; 0x220216b9; 0x5505262f;
   0xc5ba3bbe; 0xb2bd0b28; 0x2bb45a92; 0x5cb36a04; 0xc2d7ffa7; 0xb5d0cf31; 0x2cd99e8b; 0x5bdeae1d;
   0x9b64c2b0; 0xec63f226; 0x756aa39c; 0x026d930a; 0x9c0906a9; 0xeb0e363f; 0x72076785; 0x05005713;
   0x95bf4a82; 0xe2b87a14; 0x7bb12bae; 0x0cb61b38; 0x92d28e9b; 0xe5d5be0d; 0x7cdcefb7; 0x0bdbdf21;
   0x86d3d2d4; 0xf1d4e242; 0x68ddb3f8; 0x1fda836e; 0x81be16cd; 0xf6b9265b; 0x6fb077e1; 0x18b74777;
   0x88085ae6; 0xff0f6a70; 0x66063bca; 0x11010b5c; 0x8f659eff; 0xf862ae69; 0x616bffd3; 0x166ccf45;
   0xa00ae278; 0xd70dd2ee; 0x4e048354; 0x3903b3c2; 0xa7672661; 0xd06016f7; 0x4969474d; 0x3e6e77db;
   0xaed16a4a; 0xd9d65adc; 0x40df0b66; 0x37d83bf0; 0xa9bcae53; 0xdebb9ec5; 0x47b2cf7f; 0x30b5ffe9;
   0xbdbdf21c; 0xcabac28a; 0x53b39330; 0x24b4a3a6; 0xbad03605; 0xcdd70693; 0x54de5729; 0x23d967bf;
   0xb3667a2e; 0xc4614ab8; 0x5d681b02; 0x2a6f2b94; 0xb40bbe37; 0xc30c8ea1; 0x5a05df1b; 0x2d02ef8d].

(** make_crc_table, 84-107 (DYNAMIC_CRC_TABLE). *)
Definition make_poly : N :=
  fold_left (fun poly p => N.lor poly (N.shiftl 1 (31 - p))) [0;1;2;4;5;7;8;10;11;12;16;22;23;26] 0.
Definition table_step (poly c : N) : N :=
  if N.testbit c 0 then N.lxor poly (N.shiftr c 1) else N.shiftr c 1.
Definition make_crc_table : list N :=
  map (fun n => Nat.iter 8 (table_step make_poly) (N.of_nat n)) (seq 0 256).

(** DO1, 178-181. *)
Definition do1 (table : list N) (crc b : N) : N :=
  N.lxor (nth (N.to_nat (N.land (N.lxor crc b) 0xff)) table 0) (N.shiftr crc 8).

(** The loops of crc32, 191-202, on the bytes still to come: eight at a time, then one by
    one. *)
Fixpoint crc_loop (table : list N) (crc : N) (buf : list N) : N :=
  match buf with
  | b0 :: b1 :: b2 :: b3 :: b4 :: b5 :: b6 :: b7 :: rest =>
      let crc := do1 table (do1 table crc b0) b1 in
      let crc := do1 table (do1 table crc b2) b3 in
      let crc := do1 table (do1 table crc b4) b5 in
      let crc := do1 table (do1 table crc b6) b7 in
      crc_loop table crc rest
  | _ => fold_left (do1 table) buf crc
  end.

(** crc32(crc, buf, len), 184-204; [None] is the null pointer. *)
Definition crc32 (crc : N) (buf : option (list N)) : N :=
  match buf with
  | None => 0
  | Some b => N.lxor (crc_loop crc_table (N.lxor crc 0xffffffff) b) 0xffffffff
  end.
(** The same with the generated table. *)
Definition crc32_dynamic (crc : N) (buf : option (list N)) : N :=
  match buf with
  | None => 0
  | Some b => N.lxor (crc_loop make_crc_table (N.lxor crc 0xffffffff) b) 0xffffffff
  end.

(** ** lib/qdp_byteorder.cc *)

(** The native byte order of a machine.  big_endian(), 17-25, looks at the last byte of the
    int 1. *)
Inductive endian := BigE | LittleE.

(** The memory image of an unsigned [size]-byte word. *)
Fixpoint le_bytes (size : nat) (v : N) : list N :=
  match size with O => [] | S k => v mod 256 :: le_bytes k (v / 256) end.
Definition mem (e : endian) (size : nat) (v : N) : list N :=
  match e with LittleE => le_bytes size v | BigE => rev (le_bytes size v) end.
Fixpoint le_word (bs : list N) : N :=
  match bs with [] => 0 | b :: r => b + 256 * le_word r end.
Definition word (e : endian) (bs : list N) : N :=
  match e with LittleE => le_word bs | BigE => le_word (rev bs) end.

Definition big_endian (e : endian) : bool := nth 3 (mem e 4 1) 0 =? 1.

(** Access to [n] bytes at offset [off] of a buffer. *)
Definition peek (buf : list N) (off n : nat) : option (list N) :=
  if (off + n <=? length buf)%nat then Some (firstn n (skipn off buf)) else None.
Definition poke (buf : list N) (off : nat) (bs : list N) : list N :=
  firstn off buf ++ bs ++ skipn (off + length bs) buf.

(** One iteration of the loops of byte_swap.  Case 4, 40-55: n_uint32_t arithmetic. *)
Definition swap4 (old : N) : N :=
  let recent := N.land (N.shiftr old 24) 0x000000ff in
  let recent := N.lor recent (N.land (N.shiftr old 8) 0x0000ff00) in
  let recent := N.lor recent (N.land (N.shiftl old 8 mod 2 ^ 32) 0x00ff0000) in
  N.lor recent (N.land (N.shiftl old 24 mod 2 ^ 32) 0xff000000).
(** Case 2, 151-164 (int arithmetic, stored in 16 bits). *)
Definition swap2 (old : N) : N :=
  let recent := N.land (N.shiftr old 8) 0x00ff in
  N.lor recent (N.land (N.shiftl old 8) 0xff00) mod 2 ^ 16.
(** Cases 8 and 16, 60-93 and 96-148: copy to char_in, then in_ptr[k] = char_in[size-1-k]. *)
Definition swap_chars (size : nat) (char_in : list N) : list N :=
  map (fun k => nth (size - 1 - k) char_in 0) (seq 0 size).

Definition swap_word (e : endian) (size : nat) (bs : list N) : option (list N) :=
  match size with
  | 4%nat => Some (mem e 4 (swap4 (word e bs)))
  | 2%nat => Some (mem e 2 (swap2 (word e bs)))
  | 8%nat => Some (swap_chars 8 bs)
  | 16%nat => Some (swap_chars 16 bs)
  | _ => None
  end.

(** byte_swap(ptr, size, nmemb), 29-170, on the buffer ptr points to.  The loop counter is
    unsigned int: see [swap_counter]; here nmemb is below 2^32. *)
Definition byte_swap (e : endian) (buf : list N) (size nmemb : nat) : res (list N) :=
  match size with
  | 1%nat => Val buf
  | 2%nat | 4%nat | 8%nat | 16%nat =>
      fold_left (fun acc j => bind acc (fun buf =>
          bind (of_option (peek buf (size * j) size)) (fun bs =>
          bind (of_option (swap_word e size bs)) (fun bs' => Val (poke buf (size * j) bs')))))
        (seq 0 nmemb) (Val buf)
  | _ => Abort
  end.

(** The loop control "unsigned int j; for (j = 0; j < nmemb; j++)", nmemb of type size_t: the
    next value of j, or [None] when the loop ends. *)
Definition swap_counter (nmemb j : N) : option N :=
  if j <? nmemb then Some ((j + 1) mod 2 ^ 32) else None.
