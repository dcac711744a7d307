(* The properties of the ATR reader. *)
From Coq Require Import String.
From Verif Require Import Base Loop AatrModel AatrSpec AatrProofs AatrList AatrLister AatrStream AatrWitness.

(* ---- C35: files are the concatenation of their sectors ---- *)
(* whatever is done with an open file, the answers are those for the data of its sectors *)
Theorem C35_file_contents : forall img disk path e d s data ops, bytes img -> aatr_open img = Ok (Some disk) -> directory_ok d -> fresh_enough disk s ->
  resolve disk [] path (entries disk root) = Some e -> chain disk (Z.land (e_type e) 6) Complete (e_first e) data -> Forall reasonable ops ->
  exists d' s', find_entry_recursively disk path (open_root d) = Ok (true, d') /\ stream_open d' s = Ok s' /\ performs disk s' ops (answers data 0 ops).
Proof.
  intros img disk path e d s data ops B H D FR R C RE. pose proof (opened_ok img disk B H) as I. destruct (find_path disk path d I D) as (d' & E & P). rewrite R in E.
  destruct (file_contents disk e d' s data ops I (P e R) (resolve_first disk e I _ _ _ R) C FR RE) as (s' & S & PF). exists d', s'. auto.
Qed.
Print Assumptions C35_file_contents.

(* the same for the files the recursive lister comes to *)
Theorem C35_listed_contents : forall img disk path e d s data ops, bytes img -> aatr_open img = Ok (Some disk) -> fresh_enough disk s ->
  In (path, e) (all_files disk) -> points d e -> chain disk (Z.land (e_type e) 6) Complete (e_first e) data -> Forall reasonable ops ->
  exists s', stream_open d s = Ok s' /\ performs disk s' ops (answers data 0 ops).
Proof.
  intros img disk path e d s data ops B H FR IN P C RE. pose proof (opened_ok img disk B H) as I.
  exact (file_contents disk e d s data ops I P (file_first disk path e I IN) C FR RE).
Qed.
Print Assumptions C35_listed_contents.

(* a finite file is no longer than 16 megabytes *)
Theorem C35_file_size : forall img disk t s data, bytes img -> aatr_open img = Ok (Some disk) -> chain disk t Complete s data -> 0 <= s < 65536 -> len data <= 16777216.
Proof. intros img disk t s data B H. exact (file_size disk t s data (opened_ok img disk B H)). Qed.
Print Assumptions C35_file_size.

(* asking for more than there is before a sector of an impossible length is an error, and what was read is lost *)
Theorem C35_corrupt_file : forall img disk e d s data n, bytes img -> aatr_open img = Ok (Some disk) -> points d e -> 0 <= e_first e < 65536 -> fresh_enough disk s ->
  chain disk (Z.land (e_type e) 6) Corrupt (e_first e) data -> len data < n <= int_max ->
  exists s' r, stream_open d s = Ok s' /\ returns (fun fuel => stream_read fuel disk (Some (repeat 0 (Z.to_nat n))) 0 n s') r /\ fst (fst r) = -1.
Proof.
  intros img disk e d s data n B H P F FR C Hn. exact (corrupt_file disk e d s data n (opened_ok img disk B H) P F C FR Hn ltac:(lia)).
Qed.
Print Assumptions C35_corrupt_file.

(* a stream with which a corrupt file was read cannot read a healthy one *)
Theorem C35_used_stream_refuted : exists img disk bad good e d s data,
  bytes img /\ aatr_open img = Ok (Some disk) /\ directory_ok d /\ fresh_enough disk s /\
  resolve disk [] good (entries disk root) = Some e /\ chain disk (Z.land (e_type e) 6) Complete (e_first e) data /\ len data = 127 /\
  (exists b s', returns (fun fuel => read_file fuel disk good 200 d s) (127, b, s')) /\
  exists b s', returns (fun fuel => read_file fuel disk bad 200 d s) (-1, b, s') /\
  exists b' s'', returns (fun fuel => read_file fuel disk good 200 d s') (-1, b', s'').
Proof.
  exists floppy, disk_of, (text "BAD.SAP"), (text "GOOD.SAP"), good_entry, blank_directory, blank_stream, (numbers 125 ++ [77; 88]).
  split; [exact floppy_bytes|]. split; [exact floppy_opens|]. split; [split; [reflexivity|apply bytes_forallb; reflexivity]|].
  split; [split; [reflexivity|split; [apply bytes_forallb; reflexivity|intros _; discriminate]]|].
  split; [exact good_entries|]. split; [exact good_chain|]. split; [reflexivity|]. split; [exact good_read|].
  destruct bad_read as (b & Hb). exists b, left_by_bad. split; [exact Hb|exact good_unread].
Qed.
Print Assumptions C35_used_stream_refuted.

(* an empty sector that links to itself makes Read run forever *)
Theorem C35_always_returns_refuted : exists img disk path d s,
  bytes img /\ aatr_open img = Ok (Some disk) /\ directory_ok d /\ fresh_enough disk s /\ gets_stuck (fun fuel => read_file fuel disk path 1 d s).
Proof.
  exists floppy, disk_of, (text "STUCK"), blank_directory, blank_stream.
  split; [exact floppy_bytes|]. split; [exact floppy_opens|]. split; [split; [reflexivity|apply bytes_forallb; reflexivity]|].
  split; [split; [reflexivity|split; [apply bytes_forallb; reflexivity|intros _; discriminate]]|exact stuck_forever].
Qed.
Print Assumptions C35_always_returns_refuted.

Example C35_example : answers (numbers 125 ++ [77; 88]) 0 [Read 3; SetPosition 124; Read 50; GetPosition; SetPosition 200; SetPosition (-1); Read 1; GetLength]
  = [Bytes [1; 2; 3]; Flag true; Bytes [125; 77; 88]; Number 127; Flag false; Flag false; Bytes [1]; Number 127].
Proof. vm_compute. reflexivity. Qed.

(* ---- C36: where sectors are ---- *)
Theorem C36_open : forall img disk, bytes img -> aatr_open img = Ok (Some disk) ->
  6 <= len img /\ header_magic img = true /\ (header_sector_size img = 128 \/ header_sector_size img = 256) /\ at_bps disk = header_sector_size img /\ at_image disk = img.
Proof. intros img disk B H. destruct (opened_disk img disk B H) as (H1 & H2 & H3 & ->). auto. Qed.
Print Assumptions C36_open.

(* the whole sector or the beginning of it *)
Theorem C36_sector : forall img disk s n, bytes img -> aatr_open img = Ok (Some disk) -> 0 < n <= sector_size (at_bps disk) s -> 1 <= s ->
  read_sector disk s n =
    let start := sector_start (header_sector_size img) (header_padded img) s in if start + n <=? len img then Some (slice img start (start + n)) else None.
Proof. exact sector_reads. Qed.
Print Assumptions C36_sector.

Theorem C36_apart : forall bps padded s s', 0 <= bps -> 1 <= s -> s < s' -> sector_start bps padded s + sector_size bps s <= sector_start bps padded s'.
Proof. exact sectors_apart. Qed.
Print Assumptions C36_apart.

(* there are no sectors 0 and below, and the first three are too short to be data on disks with long sectors *)
Theorem C36_missing : forall disk s n, s <= 0 -> read_sector disk s n = None.
Proof. exact sector_missing. Qed.
Print Assumptions C36_missing.
Theorem C36_boot_sectors : forall disk s n, s <= 3 -> 128 < n -> read_sector disk s n = None.
Proof. exact boot_sector_as_data. Qed.
Print Assumptions C36_boot_sectors.

Example C36_example : sector_start 256 false 3 = 272 /\ sector_start 256 false 5 = 656 /\ sector_start 256 true 5 = 1040 /\ sector_start 128 false 361 = 46096
  /\ read_sector disk_of 361 5 = Some [0x42; 0; 0; 4; 0] /\ read_sector disk_of 362 1 = None.
Proof. vm_compute. auto 10. Qed.

(* ---- C37 and C47: listing ---- *)
Theorem C37_listing_ends : forall img disk l, bytes img -> aatr_open img = Ok (Some disk) -> List.length (li_directories l) = 20%nat -> Forall directory_ok (li_directories l) ->
  exists l' files, lister_open l = Ok l' /\ lists disk l' files /\ forall path e, In (path, e) files -> len path <= 259 /\ is_directory e = false.
Proof.
  intros img disk l B H L F. destruct (lister_lists disk l (opened_ok img disk B H) (conj L F)) as (l' & E & LI). exists l', (all_files disk). split; [exact E|]. split; [exact LI|].
  exact (path_lengths disk).
Qed.
Print Assumptions C37_listing_ends.

Theorem C47_listing_exact : forall img disk l, bytes img -> aatr_open img = Ok (Some disk) -> List.length (li_directories l) = 20%nat -> Forall directory_ok (li_directories l) ->
  exists l', lister_open l = Ok l' /\ lists disk l' (all_files disk).
Proof. intros img disk l B H L F. exact (lister_lists disk l (opened_ok img disk B H) (conj L F)). Qed.
Print Assumptions C47_listing_exact.

(* the directory AGAIN contains itself *)
Example C47_example : listed 7 = Ok (text_files 7) /\ nth 6 (text_files 7) [] = text "AGAIN/AGAIN/GOOD.SAP".
Proof. exact some_listed. Qed.

(* ---- C48: finding ---- *)
Theorem C48_find_path : forall img disk path d, bytes img -> aatr_open img = Ok (Some disk) -> directory_ok d ->
  exists d', find_entry_recursively disk path (open_root d) = Ok (match resolve disk [] path (entries disk root) with Some _ => true | None => false end, d')
    /\ forall e, resolve disk [] path (entries disk root) = Some e -> points d' e.
Proof. intros img disk path d B H. exact (find_path disk path d (opened_ok img disk B H)). Qed.
Print Assumptions C48_find_path.

Example C48_example : found "GOOD.SAP" = Some good_entry /\ found "AGAIN/AGAIN/GOOD.SAP" = Some good_entry /\ found "GONE.SAP" = None /\ found "good.sap" = None.
Proof. exact good_found. Qed.
