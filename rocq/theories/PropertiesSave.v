(* Properties of saving: the output window (C15) and the offered formats (C20).
   Statements only; the proofs are in WindowProofs.v, SaveProofs.v and SaveWitness.v. *)
From Coq Require Import String.
From Verif Require Import Base InfoModel InfoSpec WriterModel FlashPackModel WriteModel SapSpec SapWitness NativeWitness WindowSpec WindowProofs NameProofs SaveProofs SaveWitness.

(* ---- C15 ---- *)
(* saving in any format but executable stores inside the window only *)
Theorem C15_window :
  forall target inf module tag w, wf w -> ~ named target xex_ext ->
  match api_write target inf module tag w with
  | Ok (_, w') => only_inside (w_off w) (w_end w) (w_out w) (w_out w') /\ w_off w <= w_off w' <= w_end w
  | UB r => r = UbRead \/ r = UbNegSize
  | _ => True
  end.
Proof. exact window_named. Qed.
Print Assumptions C15_window.

(* saving an executable stores between the beginning of the array and the end of the window *)
Theorem C15_window_xex :
  forall target inf module tag w b w', wf w -> named target xex_ext -> api_write target inf module tag w = Ok (b, w') ->
  only_inside 0 (w_end w) (w_out w) (w_out w') /\ 0 <= w_off w' <= w_end w
  /\ (b = true -> at_ (w_out w') 0 = 255 /\ at_ (w_out w') 1 = 255 /\ 100 < w_off w').
Proof. exact xex_window_named. Qed.
Print Assumptions C15_window_xex.

Example C15_example : exists inf w',
  loaded_as "x.cmc" cmc_file = Ok inf
  /\ api_write (str "y.sap") inf cmc_file false (mkW (repeat 7 100) 10 90) = Ok (false, w')
  /\ w_out w' <> repeat 7 100 /\ at_ (w_out w') 9 = 7 /\ at_ (w_out w') 90 = 7.
Proof. exact cmc_no_room. Qed.

(* an executable is packed from index 0: the bytes below the window are read as its beginning and replaced *)
Theorem C15_start_refuted : exists inf w',
  loaded_as "x.sap" sap_witness = Ok inf
  /\ api_write (str "y.xex") inf sap_witness false low_bytes = Ok (true, w')
  /\ at_ (w_out w') 0 = 255 /\ at_ (w_out w') 4 <> 99.
Proof. exact xex_below_start. Qed.
Print Assumptions C15_start_refuted.

(* a loaded file can make the writer copy a negative number of bytes *)
Theorem C15_negative_copy_refuted : exists inf,
  loaded_as "x.sap" short_cmc = Ok inf
  /\ api_get_save_exts inf short_cmc = Ok [sap_ext; [99; 109; 99]; xex_ext]
  /\ api_write (str "y.cmc") inf short_cmc false (mkW (repeat 7 5000) 0 5000) = UB UbNegSize.
Proof. exact short_cmc_ub. Qed.
Print Assumptions C15_negative_copy_refuted.

(* ---- C20 ---- *)
(* what is listed: "sap" always, "xex" for all types that have a player routine, at most one original format *)
Theorem C20_listed :
  forall inf module exts, api_get_save_exts inf module = Ok exts ->
  len exts <= 3 /\ NoDup exts /\ In sap_ext exts
  /\ (In xex_ext exts <-> ~ (i_type inf = SAP_S \/ (i_type inf = SAP_D /\ i_fastplay inf <> 312))).
Proof. exact listed_formats. Qed.
Print Assumptions C20_listed.

(* a listed extension reaches its writer *)
Theorem C20_dispatch :
  forall inf module exts target tag w e, api_get_save_exts inf module = Ok exts -> In e exts -> named target e ->
  (e = sap_ext -> api_write target inf module tag w = write_executable false inf module w)
  /\ (e = xex_ext -> api_write target inf module tag w =
       wseqs [ write_executable true inf module;
               wbind (exec_init_player inf module) (fun '(init, player) => write_xex_tail inf tag init player);
               fp_compress ] w)
  /\ (e <> sap_ext -> e <> xex_ext -> api_write target inf module tag w = write_native inf module w).
Proof. exact listed_dispatch. Qed.
Print Assumptions C20_dispatch.

(* "tm8" is a second name for a listed "tmc" *)
Theorem C20_alias :
  forall inf module exts target tag w, api_get_save_exts inf module = Ok exts -> In tmc_ext exts -> named target tm8_ext ->
  api_write target inf module tag w = write_native inf module w.
Proof. exact alias_dispatch. Qed.
Print Assumptions C20_alias.

(* anything else is not saved, and nothing is stored unless it is an attempt to save an executable *)
Theorem C20_unlisted :
  forall inf module exts target tag w, api_get_save_exts inf module = Ok exts ->
  (forall e, In e exts \/ also_listed exts e -> ~ named target e) ->
  not_saved (api_write target inf module tag w)
  /\ (~ named target xex_ext -> refused (api_write target inf module tag w) w).
Proof. exact unlisted_refused. Qed.
Print Assumptions C20_unlisted.

(* when the list can be asked for without reading outside the module *)
Theorem C20_defined :
  forall inf module, 0 <= i_headerLen inf -> i_headerLen inf + 6 < len module -> bytes module ->
  (i_player inf <> 13315 \/ file_word module (i_headerLen inf + 2) <= file_word module (i_headerLen inf + 4)) ->
  exists exts, api_get_save_exts inf module = Ok exts.
Proof. exact save_exts_defined. Qed.
Print Assumptions C20_defined.

Example C20_example : exists inf w',
  loaded_as "x.cmc" cmc_file = Ok inf
  /\ api_get_save_exts inf cmc_file = Ok [[99; 109; 99]; sap_ext; xex_ext]
  /\ api_write (str "y.CMC") inf cmc_file false (mkW (repeat 7 800) 0 790) = Ok (true, w')
  /\ w_off w' = 774 /\ at_ (w_out w') 0 = 255 /\ at_ (w_out w') 774 = 7.
Proof. exact cmc_saves. Qed.

Example C20_unlisted_example : exists inf,
  loaded_as "x.cmc" cmc_file = Ok inf /\ refused (api_write (str "y.rmt") inf cmc_file false (mkW (repeat 7 800) 0 790)) (mkW (repeat 7 800) 0 790).
Proof. exact cmc_unlisted. Qed.

(* a loaded file can make it read outside the module *)
Theorem C20_out_of_bounds_refuted : exists inf,
  loaded_as "x.sap" backwards_rmt = Ok inf /\ api_get_save_exts inf backwards_rmt = UB UbRead.
Proof. exact backwards_rmt_ub. Qed.
Print Assumptions C20_out_of_bounds_refuted.
