(* What a command line of asapconv means, independently of how it is read *)
From Coq Require Import String.
From Verif Require Import Base InfoModel InfoSpec OptionModel.

(* c is the digit d *)
Definition digit (base c d : Z) : Prop := 0 <= d < base /\ (d < 10 /\ c = 48 + d \/ 10 <= d /\ (c = 55 + d \/ c = 87 + d)).
(* the number with these digits, the most significant one first *)
Fixpoint value (base : Z) (ds : list Z) : Z :=
  match ds with
  | d :: r => d * base ^ len r + value base r
  | [] => 0
  end.
Definition blank (c : Z) : Prop := c = 32 \/ 9 <= c <= 13.

(* s denotes v: blanks, a sign, 0x in base 16, and at least one digit; minus only for zero *)
Definition numeral (base : Z) (s : list Z) (v : Z) : Prop :=
  exists sp sg px cs ds, s = sp ++ sg ++ px ++ cs /\ Forall blank sp /\ (sg = [] \/ sg = [43] \/ sg = [45] /\ v = 0) /\
    (px = [] \/ base = 16 /\ (px = [48; 120] \/ px = [48; 88])) /\ cs <> [] /\ Forall2 (digit base) cs ds /\ v = value base ds.

Inductive opt :=
| OOutput (v : list Z) | OSong (s : list Z) (n : Z) | OTime (s : list Z) (ms : Z) | OByte | OWord | ORate (s : list Z) (n : Z)
| OMute (s : list Z) | OAuthor (v : list Z) | OName (v : list Z) | ODate (v : list Z) | OTag | ONtsc | OPal | OAddress (s : list Z) (n : Z).
Inductive item := File (name : list Z) | Short (o : opt) | Long (o : opt) | Help | LongHelp | Version | LongVersion
| BareRate (s : list Z) (n : Z).   (* --sample-rateN, which is not documented *)

(* as print_help documents them (asapconv.c:66-112) *)
Local Open Scope string_scope.
Definition written (i : item) : list (list Z) :=
  match i with
  | File name => [name]
  | Short (OOutput v) => [str "-o"; v] | Long (OOutput v) => [(str "--output=" ++ v)%list]
  | Short (OSong s _) => [str "-s"; s] | Long (OSong s _) => [(str "--song=" ++ s)%list]
  | Short (OTime s _) => [str "-t"; s] | Long (OTime s _) => [(str "--time=" ++ s)%list]
  | Short OByte => [str "-b"] | Long OByte => [str "--byte-samples"]
  | Short OWord => [str "-w"] | Long OWord => [str "--word-samples"]
  | Short (ORate s _) => [str "-R"; s] | Long (ORate s _) => [(str "--sample-rate=" ++ s)%list]
  | Short (OMute s) => [str "-m"; s] | Long (OMute s) => [(str "--mute=" ++ s)%list]
  | Short (OAuthor v) => [str "-a"; v] | Long (OAuthor v) => [(str "--author=" ++ v)%list]
  | Short (OName v) => [str "-n"; v] | Long (OName v) => [(str "--name=" ++ v)%list]
  | Short (ODate v) => [str "-d"; v] | Long (ODate v) => [(str "--date=" ++ v)%list]
  | Long OTag => [str "--tag"] | Long ONtsc => [str "--ntsc"] | Long OPal => [str "--pal"]
  | Long (OAddress s _) => [(str "--address=" ++ s)%list]
  | Short OTag | Short ONtsc | Short OPal | Short (OAddress _ _) => []
  | Help => [str "-h"] | LongHelp => [str "--help"] | Version => [str "-v"] | LongVersion => [str "--version"]
  | BareRate s _ => [(str "--sample-rate" ++ s)%list]
  end.
Local Close Scope string_scope.

Definition good_opt (o : opt) : Prop :=
  match o with
  | OSong s n => numeral 10 s n /\ n <= 31
  | OTime s ms => duration_syntax s ms /\ 0 < ms
  | ORate s n => numeral 10 s n /\ n <= 256000
  | OAddress s n => (exists t, (s = t \/ s = 36 :: t) /\ numeral 16 t n) /\ n <= 65535
  | _ => True
  end.
Definition good (i : item) : Prop :=
  match i with
  | File name => hd 0 name <> 45
  | Short o => good_opt o /\ match o with OTag | ONtsc | OPal | OAddress _ _ => False | _ => True end
  | Long o => good_opt o /\ match o with ORate _ _ => False | _ => True end
  | BareRate _ _ => False
  | _ => True
  end.

Definition accepted (i : item) : Prop := good i \/ exists s n, i = BareRate s n /\ good_opt (ORate s n).

(* channel c of 1..8 is muted by the string s *)
Definition muted_by (s : list Z) : Z := fold_right Z.lor 0 (map (fun c => if existsb (Z.eqb (48 + c)) s then 2 ^ (c - 1) else 0) [1; 2; 3; 4; 5; 6; 7; 8]).

Definition meaning (p : opt) (o : options) : options :=
  match p with
  | OOutput v => with_output (Some v) o
  | OSong _ n => with_song n o
  | OTime _ ms => with_duration ms o
  | OByte => with_word false o
  | OWord => with_word true o
  | ORate _ n => with_rate n o
  | OMute s => with_mute (Z.lor (o_mute o) (muted_by s)) o
  | OAuthor v => with_author (Some v) o
  | OName v => with_name (Some v) o
  | ODate v => with_date (Some v) o
  | OTag => with_tag true o
  | ONtsc => with_ntsc 1 o
  | OPal => with_ntsc 0 o
  | OAddress _ n => with_address n o
  end.

(* every file is converted with the options before it; a name is for one file only *)
Fixpoint conversions (l : list item) (o : options) : list (list Z * options) :=
  match l with
  | [] => []
  | File name :: r => (name, o) :: conversions r (with_name None o)
  | Short p :: r | Long p :: r => conversions r (meaning p o)
  | BareRate s n :: r => conversions r (meaning (ORate s n) o)
  | _ :: r => conversions r o
  end.
(* the exit code is 0 if the last thing was not an option *)
Definition exit_code (l : list item) : Z :=
  match last l (Long OTag) with Short _ | Long _ | BareRate _ _ => 1 | _ => 0 end.
