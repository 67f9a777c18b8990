(** Properties C30 - C34 and C59 - C61: byte order, checksum, binary files. *)
From Coq Require Import List Arith NArith Bool Lia Sorting.Sorted.
From Verif Require Import Base CrcModel CrcSpec CrcProofs CrcOrder SwapProofs IoModel IoSpec IoProofs.
Import ListNotations.
Local Open Scope N_scope.

(** C30.  [ws]: the words of the buffer, [post]: the memory after them; [e]: the byte order of
    the machine. *)
Theorem C30_reverses_words : forall (e : endian) (size : nat) (ws : list (list N)) (post : list N),
  In size [1; 2; 4; 8; 16]%nat -> Forall (fun w => length w = size /\ bytes_ok w) ws ->
  byte_swap e (concat ws ++ post) size (length ws) = Val (concat (map (@rev N) ws) ++ post).
Proof. exact byte_swap_ok. Qed.
Print Assumptions C30_reverses_words.
Theorem C30_involution : forall (e : endian) (size : nat) (ws : list (list N)) (post : list N),
  In size [1; 2; 4; 8; 16]%nat -> Forall (fun w => length w = size /\ bytes_ok w) ws ->
  bind (byte_swap e (concat ws ++ post) size (length ws)) (fun b => byte_swap e b size (length ws)) = Val (concat ws ++ post).
Proof.
  intros e size ws post Hs HF. rewrite byte_swap_ok by assumption. cbn [bind].
  pose proof (byte_swap_ok e size (map (@rev N) ws) post Hs) as E. rewrite map_length, map_map in E.
  rewrite E.
  - do 2 f_equal. f_equal. rewrite <- (map_id ws) at 2. apply map_ext. apply rev_involutive.
  - apply Forall_forall. intros w H. apply in_map_iff in H. destruct H as (w' & <- & H). rewrite Forall_forall in HF.
    destruct (HF w' H) as [L B]. split; [now rewrite rev_length|]. apply Forall_rev, B.
Qed.
Print Assumptions C30_involution.
Theorem C30_unsupported_size_aborts : forall (e : endian) (buf : list N) (size nmemb : nat),
  ~ In size [1; 2; 4; 8; 16]%nat -> byte_swap e buf size nmemb = Abort.
Proof. exact byte_swap_unsupported. Qed.
Print Assumptions C30_unsupported_size_aborts.
(** The loop counter takes the values 0, 1, ..., nmemb and the loop ends, for nmemb < 2^32. *)
Theorem C30_loop_ends : forall nmemb : N, nmemb < 2 ^ 32 ->
  Nat.iter (N.to_nat nmemb) (fun o => match o with Some j => swap_counter nmemb j | None => None end) (Some 0) = Some nmemb /\
  swap_counter nmemb nmemb = None.
Proof. exact swap_counter_stops. Qed.
Print Assumptions C30_loop_ends.
(** Finding: for 2^32 words or more it never ends. *)
Theorem C30_large_count_refuted : forall nmemb : N, 2 ^ 32 <= nmemb -> forall n : nat, exists j,
  Nat.iter n (fun o => match o with Some j => swap_counter nmemb j | None => None end) (Some 0) = Some j /\ j < 2 ^ 32.
Proof. exact swap_counter_never_stops. Qed.
Print Assumptions C30_large_count_refuted.
Example C30_case :
  byte_swap LittleE [1;2;3;4;5;6;7;8;9] 4 2 = Val [4;3;2;1;8;7;6;5;9] /\
  byte_swap BigE [1;2;3;4;5;6;7;8;9] 4 2 = Val [4;3;2;1;8;7;6;5;9] /\
  byte_swap LittleE [1;2;3] 3 1 = Abort.
Proof. vm_compute. auto. Qed.

(** C31 *)
Theorem C31_standard_crc32 : forall (c : N) (bytes : list N), c < 2 ^ 32 -> bytes_ok bytes ->
  is_crc32 c bytes (crc32 c (Some bytes)).
Proof. exact crc32_spec. Qed.
Print Assumptions C31_standard_crc32.
Theorem C31_specification_unique : forall (c : N) (bytes : list N) (c1 c2 : N),
  is_crc32 c bytes c1 -> is_crc32 c bytes c2 -> c1 = c2.
Proof. exact is_crc32_unique. Qed.
Print Assumptions C31_specification_unique.
Theorem C31_pieces : forall (pieces : list (list N)) (c : N),
  fold_left (fun c p => crc32 c (Some p)) pieces c = crc32 c (Some (concat pieces)).
Proof.
  induction pieces as [|p l IH]; intros c; cbn [fold_left concat].
  - symmetry. apply crc32_nil.
  - rewrite IH. apply crc32_app.
Qed.
Print Assumptions C31_pieces.
(** The generated table (DYNAMIC_CRC_TABLE) gives the same function. *)
Theorem C31_generated_table : forall (c : N) (buf : option (list N)), crc32_dynamic c buf = crc32 c buf.
Proof. intros c [b|]; [|reflexivity]. unfold crc32_dynamic, crc32. now rewrite table_made. Qed.
Print Assumptions C31_generated_table.
Example C31_case :
  crc32 0 (Some [49;50;51;52;53;54;55;56;57]) = 0xCBF43926 /\
  crc32 (crc32 0 (Some [49;50;51])) (Some [52;53;54;55;56;57]) = 0xCBF43926.
Proof. vm_compute. auto. Qed.

(** C32 *)
Theorem C32_changed_bytes_detected : forall (c : N) (pre xs ys post : list N), c < 2 ^ 32 ->
  bytes_ok (pre ++ xs ++ post) -> bytes_ok (pre ++ ys ++ post) ->
  length xs = length ys -> (length xs <= 4)%nat -> xs <> ys ->
  crc32 c (Some (pre ++ xs ++ post)) <> crc32 c (Some (pre ++ ys ++ post)).
Proof. exact bytes_detected. Qed.
Print Assumptions C32_changed_bytes_detected.
Theorem C32_burst_detected : forall (c : N) (a b : list N) (pre xs ys post : list bool), c < 2 ^ 32 ->
  bytes_ok a -> bytes_ok b -> bits a = pre ++ xs ++ post -> bits b = pre ++ ys ++ post ->
  length xs = length ys -> (length xs <= 32)%nat -> xs <> ys ->
  crc32 c (Some a) <> crc32 c (Some b).
Proof. exact burst_detected. Qed.
Print Assumptions C32_burst_detected.
Theorem C32_two_bits_detected : forall (c : N) (a b : list N) (i j : nat), c < 2 ^ 32 ->
  bytes_ok a -> bytes_ok b -> (i < j < length (bits a))%nat -> N.of_nat (j - i) < 2 ^ 32 - 1 ->
  differ_at [i; j] (bits a) (bits b) -> crc32 c (Some a) <> crc32 c (Some b).
Proof. exact two_bits_detected. Qed.
Print Assumptions C32_two_bits_detected.
Example C32_case :
  crc32 0 (Some [1;2;3;4;5]) <> crc32 0 (Some [1;2;7;4;5]) /\
  bits [1;2;3;4;5] = bits [1;2] ++ byte_bits 3 ++ bits [4;5] /\
  bits [1;2;7;4;5] = bits [1;2] ++ byte_bits 7 ++ bits [4;5].
Proof. vm_compute. repeat split; discriminate. Qed.

(** C33.  A list of typed objects written on a machine of byte order [e1] and read on one of
    byte order [e2]; [klt]: operator< of the keys of std::map. *)
Theorem C33_files_round_trip : forall (klt : value -> value -> bool) (e1 e2 : endian) (l : list (ty * value)),
  strict_order klt -> Forall (fun p => has_type klt (fst p) (snd p)) l ->
  exists w r, write_objects e1 l file_writer = Val w /\
    read_objects klt e2 (map fst l) (file_reader (s_data w)) = Val (map snd l, r) /\
    s_get r = length (s_data w) /\
    exists c, getChecksum w = Val c /\ getChecksum r = Val c.
Proof.
  intros klt e1 e2 l Hk HF.
  pose proof (write_objects_ok klt e1 l HF file_writer ltac:(intros X; discriminate X)) as E.
  assert (Hd : s_data (emit (enc_all l) file_writer) = enc_all l).
  { destruct (emit_fields (enc_all l) file_writer eq_refl) as (_ & D & _). rewrite D. cbn [s_data s_put file_writer].
    rewrite overwrite_data by (cbn; lia). cbn [firstn app]. rewrite skipn_nil. apply app_nil_r. }
  exists (emit (enc_all l) file_writer), (consume (enc_all l) (file_reader (enc_all l))). split; [exact E|]. rewrite Hd. split.
  - apply (read_objects_ok klt Hk e2 l HF []). split; [reflexivity|]. split; [intros X; discriminate X|].
    exists []. cbn. now rewrite app_nil_r.
  - split; [reflexivity|]. exists (crc32 0 (Some (enc_all l))). split; reflexivity.
Qed.
Print Assumptions C33_files_round_trip.
(** The same at any place of any file: nothing else in the file changes, reader and writer end
    at the same place, and their checksums, equal at the start, are equal at the end. *)
Theorem C33_round_trip_anywhere : forall (klt : value -> value -> bool) (e1 e2 : endian) (l : list (ty * value)) (w : stream),
  strict_order klt -> Forall (fun p => has_type klt (fst p) (snd p)) l ->
  s_fail w = false -> (s_joint w = true -> s_get w = s_put w) -> (s_put w <= length (s_data w))%nat ->
  exists w', write_objects e1 l w = Val w' /\ s_fail w' = false /\ (s_put w <= s_put w')%nat /\
    s_joint w' = s_joint w /\
    (forall i, (i < s_put w \/ s_put w' <= i)%nat -> nth_error (s_data w') i = nth_error (s_data w) i) /\
    forall r, s_data r = s_data w' -> s_get r = s_put w -> s_fail r = false ->
      (s_joint r = true -> s_get r = s_put r) -> s_crc r = s_crc w ->
      exists r', read_objects klt e2 (map fst l) r = Val (map snd l, r') /\
        s_get r' = s_put w' /\ s_crc r' = s_crc w' /\ s_data r' = s_data w'.
Proof. exact round_trip. Qed.
Print Assumptions C33_round_trip_anywhere.
(** The file is the same on machines of both byte orders. *)
Theorem C33_file_independent_of_byte_order : forall (klt : value -> value -> bool) (l : list (ty * value)) (w : stream),
  Forall (fun p => has_type klt (fst p) (snd p)) l -> (s_joint w = true -> s_get w = s_put w) ->
  write_objects BigE l w = write_objects LittleE l w.
Proof. intros klt l w. apply (write_bytes_same klt). Qed.
Print Assumptions C33_file_independent_of_byte_order.
(** A word is stored with its most significant byte first; the caller's memory is unchanged. *)
Theorem C33_words_stored_big_endian : forall (e : endian) (size : nat) (vs : list N) (post : list N),
  In size [1; 2; 4; 8; 16]%nat ->
  exists w, write_array e (concat (map (mem e size) vs) ++ post) size (length vs) file_writer
            = Val (concat (map (mem e size) vs) ++ post, w) /\
    s_data w = concat (map (big_endian_bytes size) vs).
Proof.
  intros e size vs post Hs. exists (emit (concat (map (mem BigE size) vs)) file_writer). split; [now apply write_array_ok|].
  destruct (emit_fields (concat (map (mem BigE size) vs)) file_writer eq_refl) as (_ & D & _). rewrite D. cbn [s_data s_put file_writer].
  rewrite overwrite_data by (cbn; lia). cbn [firstn app]. rewrite skipn_nil, app_nil_r. f_equal. apply map_ext. apply big_endian_mem.
Qed.
Print Assumptions C33_words_stored_big_endian.
(** readArrayLittleEndian of words stored with the least significant byte first. *)
Theorem C33_little_endian_read : forall (e : endian) (size : nat) (vs post : list N),
  In size [1; 2; 4; 8; 16]%nat ->
  exists st, read_array_little e size (length vs) (file_reader (concat (map (fun v => rev (big_endian_bytes size v)) vs) ++ post))
             = Val (concat (map (mem e size) vs), st) /\ getChecksum st = Val 0.
Proof.
  intros e size vs post Hs.
  replace (map (fun v => rev (big_endian_bytes size v)) vs) with (map (mem LittleE size) vs).
  - destruct (read_little_ok e size vs post (file_reader (concat (map (mem LittleE size) vs) ++ post)) Hs) as (st & E & C).
    + split; [reflexivity|]. split; [intros X; discriminate X|]. exists []. split; reflexivity.
    + exists st. split; [exact E|]. unfold getChecksum. rewrite C. reflexivity.
  - apply map_ext. intros v. rewrite <- big_endian_mem. cbn [mem]. now rewrite rev_involutive.
Qed.
Print Assumptions C33_little_endian_read.

(** A case: a map from ints to a 2 x 3 array of shorts, a string and a double. *)
Definition key_less (a b : value) : bool := match a, b with VPrim x, VPrim y => x <? y | _, _ => false end.
Lemma key_less_order : strict_order key_less.
Proof.
  split; [intros []; cbn; auto using N.ltb_irrefl|]. intros [] [] []; cbn; try discriminate. rewrite !N.ltb_lt. lia.
Qed.
Definition case_objects : list (ty * value) :=
  [(TMap (TPrim 4) (TMulti 2 (TPrim 2)),
    VMap [(VPrim 3, VMulti [3; 2]%nat (map VPrim [1;2;3;4;5;600])); (VPrim 7, VMulti [1; 0]%nat [])]);
   (TDesc, VDesc [72; 0; 10]); (TLine 5, VDesc [72; 105]); (TNd (TPrim 8), VNd [2]%nat [VPrim 4607182418800017408; VPrim 0])].
Lemma case_typed : Forall (fun p => has_type key_less (fst p) (snd p)) case_objects.
Proof.
  repeat match goal with
         | |- In _ _ => cbn; tauto
         | |- _ <> _ => discriminate
         | |- int_size _ => reflexivity
         | |- _ < _ => reflexivity
         | |- _ = _ => reflexivity
         | |- line_ok _ _ => split; [|split]; [cbn; intuition discriminate|cbn; intuition discriminate|cbn; lia]
         | |- _ => constructor
         end.
Qed.
Example C33_case :
  match write_objects LittleE case_objects file_writer with
  | Val w => match read_objects key_less BigE (map fst case_objects) (file_reader (s_data w)) with
             | Val (vs, r) => vs = map snd case_objects /\ getChecksum r = getChecksum w /\ getChecksum w <> Val 0 /\ length (s_data w) = 74%nat
             | _ => False end
  | _ => False
  end.
Proof. vm_compute. repeat split; discriminate. Qed.

(** C34.  Finding: a string with a newline or NUL, or with maxBytes or more characters, is not
    read back; all others are. *)
Theorem C34_strings_round_trip_iff : forall (e : endian) (s : list N) (maxBytes : nat),
  bytes_ok s -> (0 < maxBytes)%nat ->
  exists w s' r, write_string e s file_writer = Val w /\
    read_string maxBytes (file_reader (s_data w)) = Val (s', r) /\
    (s' = s <-> ~ In 10 s /\ ~ In 0 s /\ (length s < maxBytes)%nat) /\
    (s' = s -> s_fail r = false /\ getChecksum r = getChecksum w).
Proof.
  intros e s max H Hm. exists (emit (s ++ [10]) file_writer).
  assert (Hd : s_data (emit (s ++ [10]) file_writer) = s ++ [10]).
  { destruct (emit_fields (s ++ [10]) file_writer eq_refl) as (_ & D & _). rewrite D. cbn [s_data s_put file_writer].
    rewrite overwrite_data by (cbn; lia). cbn [firstn app]. rewrite skipn_nil. apply app_nil_r. }
  rewrite Hd, write_string_ok by exact H.
  assert (R : ready (file_reader (s ++ [10])) ((s ++ [10]) ++ [])).
  { split; [reflexivity|]. split; [intros X; discriminate X|]. exists []. cbn. now rewrite app_nil_r. }
  destruct (read_string max (file_reader (s ++ [10]))) as [[s' r]| |] eqn:E.
  - exists s', r. split; [reflexivity|]. split; [reflexivity|].
    assert (G : line_ok max s -> s' = s /\ r = consume (s ++ [10]) (file_reader (s ++ [10]))).
    { intros L. rewrite (read_string_ok max s [] _ H L R) in E. now inversion E. }
    split; [split|].
    + intros ->. exact (read_string_line _ _ _ _ E).
    + intros L. now apply G.
    + intros ->. destruct (G (read_string_line _ _ _ _ E)) as [_ ->]. split; reflexivity.
  - exfalso. unfold read_string in E. destruct max; [lia|]. cbn [s_fail file_reader] in E.
    destruct (getline_loop _ _) as [[? ?] ?]. discriminate E.
  - exfalso. unfold read_string in E. destruct max; [lia|]. cbn [s_fail file_reader] in E.
    destruct (getline_loop _ _) as [[? ?] ?]. discriminate E.
Qed.
Print Assumptions C34_strings_round_trip_iff.
Theorem C34_newline_refuted :
  match write_string LittleE [65; 10; 66] file_writer with
  | Val w => match read_string 100 (file_reader (s_data w)) with Val (s, _) => s = [65] | _ => False end
  | _ => False
  end.
Proof. vm_compute. reflexivity. Qed.
Print Assumptions C34_newline_refuted.
(** writeDesc and readDesc round-trip every string. *)
Theorem C34_desc_round_trip : forall (e1 e2 : endian) (s : list N), bytes_ok s -> N.of_nat (length s) < 2 ^ 31 ->
  exists w r, write_desc e1 s file_writer = Val w /\
    read_desc e2 (file_reader (s_data w)) = Val (s, r) /\ getChecksum r = getChecksum w.
Proof.
  intros e1 e2 s H HL. exists (emit (int_bytes (length s) ++ s) file_writer).
  assert (Hd : s_data (emit (int_bytes (length s) ++ s) file_writer) = int_bytes (length s) ++ s).
  { destruct (emit_fields (int_bytes (length s) ++ s) file_writer eq_refl) as (_ & D & _). rewrite D. cbn [s_data s_put file_writer].
    rewrite overwrite_data by (cbn; lia). cbn [firstn app]. rewrite skipn_nil. apply app_nil_r. }
  exists (consume (int_bytes (length s) ++ s) (file_reader (int_bytes (length s) ++ s))).
  split; [now apply write_desc_ok|]. rewrite Hd. split; [|reflexivity].
  apply (read_desc_ok e2 s []); auto. split; [reflexivity|]. split; [intros X; discriminate X|]. exists []. cbn [app].
  rewrite app_nil_r. split; reflexivity.
Qed.
Print Assumptions C34_desc_round_trip.
Example C34_case :
  match write_desc LittleE [65; 10; 0; 66] file_writer with
  | Val w => match read_desc BigE (file_reader (s_data w)) with Val (s, _) => s = [65; 10; 0; 66] | _ => False end
  | _ => False
  end.
Proof. vm_compute. reflexivity. Qed.

(** C59.  Finding: a binary buffer made from a string has no defined checksum, whatever is
    written to it, until a seek or resetChecksum; other readers and writers start at 0. *)
Theorem C59_buffer_checksum_refuted : forall (klt : value -> value -> bool) (e : endian) (l : list (ty * value)) (s : list N),
  Forall (fun p => has_type klt (fst p) (snd p)) l ->
  exists st, write_objects e l (buffer_from s) = Val st /\ getChecksum st = Undef.
Proof. exact buffer_checksum_undefined. Qed.
Print Assumptions C59_buffer_checksum_refuted.
Theorem C59_other_checksums_defined : forall (data : list N) (p : nat) (st : stream),
  getChecksum file_writer = Val 0 /\ getChecksum (file_reader data) = Val 0 /\
  getChecksum (file_readwriter data) = Val 0 /\ getChecksum buffer_empty = Val 0 /\
  getChecksum (resetChecksum st) = Val 0 /\ getChecksum (reader_seek p st) = Val 0 /\
  getChecksum (writer_seek p st) = Val 0 /\ getChecksum (readwriter_seek p st) = Val 0.
Proof. repeat split. Qed.
Print Assumptions C59_other_checksums_defined.
Example C59_case : exists st, write_objects BigE case_objects (buffer_from [1; 2]) = Val st /\ getChecksum st = Undef.
Proof. apply (C59_buffer_checksum_refuted key_less), case_typed. Qed.

(** C60.  A file reader-writer: write at any place, go back, read. *)
Theorem C60_file_readwriter : forall (klt : value -> value -> bool) (e1 e2 : endian) (l : list (ty * value)) (p : nat) (st : stream),
  strict_order klt -> Forall (fun p => has_type klt (fst p) (snd p)) l ->
  s_joint st = true -> s_fail st = false -> (p <= length (s_data st))%nat ->
  exists st' st'', write_objects e1 l (readwriter_seek p st) = Val st' /\
    read_objects klt e2 (map fst l) (readwriter_seek p st') = Val (map snd l, st'') /\
    s_crc st'' = s_crc st' /\
    (forall i, (i < p \/ s_put st' <= i)%nat -> nth_error (s_data st') i = nth_error (s_data st) i).
Proof. exact readwriter_objects. Qed.
Print Assumptions C60_file_readwriter.
(** Finding: in a buffer reader-writer, seek does not move the place of writing: the bytes go
    after the last write for every target of the seek. *)
Theorem C60_buffer_seek_ignored_refuted : forall (klt : value -> value -> bool) (e : endian) (l : list (ty * value)) (p : nat) (st : stream),
  Forall (fun p => has_type klt (fst p) (snd p)) l -> s_joint st = false -> s_fail st = false ->
  exists bs st', write_objects e l (readwriter_seek p st) = Val st' /\
    s_data st' = overwrite (s_data st) (s_put st) bs /\
    forall q, exists st2, write_objects e l (readwriter_seek q st) = Val st2 /\ s_data st2 = s_data st'.
Proof. exact buffer_write_place. Qed.
Print Assumptions C60_buffer_seek_ignored_refuted.
Theorem C60_buffer_witness_refuted :
  match bind (write_objects LittleE [(TPrim 4, VPrim 1)] buffer_empty) (fun a =>
        bind (write_objects LittleE [(TPrim 4, VPrim 2)] (readwriter_seek 0 a)) (fun b =>
        read_objects key_less LittleE [TPrim 4] (readwriter_seek 0 b))) with
  | Val (vs, _) => vs = [VPrim 1]
  | _ => False
  end.
Proof. vm_compute. reflexivity. Qed.
Print Assumptions C60_buffer_witness_refuted.
Example C60_case :
  match bind (write_objects LittleE [(TPrim 4, VPrim 1); (TPrim 4, VPrim 3)] (file_readwriter [])) (fun a =>
        bind (write_objects LittleE [(TPrim 4, VPrim 2)] (readwriter_seek 0 a)) (fun b =>
        read_objects key_less LittleE [TPrim 4; TPrim 4] (readwriter_seek 0 b))) with
  | Val (vs, _) => vs = [VPrim 2; VPrim 3]
  | _ => False
  end.
Proof. vm_compute. reflexivity. Qed.

(** C61.  Finding: clear() of a binary buffer empties nothing; it resets the error state and
    the checksum. *)
Theorem C61_clear_keeps_contents_refuted : forall st : stream,
  buffer_str (buffer_clear st) = buffer_str st /\ s_get (buffer_clear st) = s_get st /\
  s_put (buffer_clear st) = s_put st /\ s_fail (buffer_clear st) = false /\ getChecksum (buffer_clear st) = Val 0.
Proof. repeat split. Qed.
Print Assumptions C61_clear_keeps_contents_refuted.
Example C61_case :
  match write_objects LittleE [(TPrim 4, VPrim 1)] buffer_empty with
  | Val a => buffer_str (buffer_clear a) = [0; 0; 0; 1]
  | _ => False
  end.
Proof. vm_compute. reflexivity. Qed.
