(* A small SAP file used by the examples and refutations. *)
From Coq Require Import String.
From Verif Require Import Base InfoModel.

(* a freshly allocated ASAPInfo *)
Definition blank_info : info :=
  mkInfo [] [] [] [] 0 0 0 (repeat 0 32) (repeat false 32) false SAP_B 0 0 0 0 0 0 (repeat 0 32).

Definition sap_witness : list Z :=
  str "SAP" ++ [13; 10] ++ str "NAME ""A title""" ++ [13; 10] ++ str "SONGS 2" ++ [13; 10] ++ str "DEFSONG 1" ++ [13; 10]
  ++ str "TYPE B" ++ [13; 10] ++ str "MUSIC 2000" ++ [13; 10] ++ str "INIT 1000" ++ [13; 10] ++ str "PLAYER 1003" ++ [13; 10]
  ++ str "TIME 0:59.2" ++ [13; 10] ++ str "TIME 1:30 LOOP" ++ [13; 10]
  ++ [255; 255; 0; 16; 2; 16; 96; 234; 96].
