(* Concrete machine states and files used by the examples and refutations. *)
From Coq Require Import String.
From Verif Require Import Base MemModel InfoModel NativeModel PokeyModel MachineModel PlayModel SapWitness.

(* a freshly allocated object, its uninitialised memory taken as zeros; 44100 is the rate of ASAP_Construct *)
Definition blank_channel : channel := mkChannel 0 0 0 0 0 0 0 0.
Definition blank_pokey : pokey :=
  mkPokey blank_channel blank_channel blank_channel blank_channel 0 0 0 false 0 0 0 0 [] 0 0 0 0 0.
Definition blank_pair : pokeyPair := mkPokeyPair 0 blank_pokey blank_pokey 0 (fun _ _ => 0) 0 0 0 0.
Definition blank_asap : asap :=
  mkAsap mem0 0 0 0 0 0 0 0 0 0 0 0 NMI_RESET 0 [] blank_pair blank_info 0 0 0 0 0 0 0 false 44100.

(* POKEYs after PokeyPair_Initialize *)
Definition fresh_channel : channel := mkChannel 0 0 28 never never 0 0 0.
Definition fresh_pokey : pokey :=
  mkPokey fresh_channel fresh_channel fresh_channel fresh_channel 0 3 255 false 28 28 28 60948015 (repeat 0 918) 0 0 6 0 918.
Definition fresh_pair : pokeyPair := mkPokeyPair 0 fresh_pokey fresh_pokey 44100 (fun _ _ => 0) 6519 0 0 0.

(* a machine about to execute the given code at the given address *)
Definition machine (pc a x y sp nz c vdi : Z) (code : list Z) : asap :=
  mkAsap (st_list mem0 pc code) 0 pc a x y sp nz c vdi 100 114 NMI_RESET 8 [128; 128; 128; 128] fresh_pair blank_info
    0 0 0 0 0 0 0 false 44100.

(* load a module and play its first song *)
Definition load_and_play (rate : Z) (name : option (list Z)) (module : list Z) : outcome (bool * asap) :=
  s <- asap_load 100 name module (api_set_sample_rate rate blank_asap) ;; api_play_song 0 (-1) s.

(* a SAP file whose INIT address is FFFF, where it puts the first byte of LDA # *)
Definition edge_sap : list Z :=
  str "SAP" ++ [13; 10] ++ str "TYPE B" ++ [13; 10] ++ str "INIT FFFF" ++ [13; 10] ++ str "PLAYER 0600" ++ [13; 10]
  ++ [255; 255; 255; 255; 255; 255; 169].
