(* A concrete RMT module for the examples of PropertiesNames.v *)
From Coq Require Import String.
From Verif Require Import Base BaseFacts InfoModel NativeModel MachineModel SapWitness NamesModel.

(* one song line and a jump back; the title has a character that is not valid in texts of ASAP *)
Definition tune_texts : list Z := str "My {tune"%string ++ [0] ++ str "bass"%string ++ [0] ++ str "lead"%string ++ [0].
Definition tune_with (texts : list Z) : list Z :=
  let base := 16384 in let song := [0; 255; 255; 255; 254; 0; 0; 64] in
  let w k := [(base + k) mod 256; (base + k) / 256] in
  [255; 255] ++ w 0 ++ w (23 + len song) ++ str "RMT4"%string ++ [2; 1; 1; 1] ++ w 16 ++ w 18 ++ w 19 ++ w 24
  ++ [0; 0] ++ [(base + 20) mod 256; (base + 20) / 256] ++ [0; 0; 1; 0] ++ song
  ++ w (24 + len song) ++ w (23 + len song + len texts) ++ texts.
Definition texts_of (f : list Z) : outcome (list Z * Z) :=
  inf <- api_load 3000 blank_info (Some (str "x.RMT"%string)) f ;; r <- api_instrument_names_offset inf f ;; Ok (i_title inf, r).
