(* Vocabulary for C68: debug mode. *)
From Verif Require Import ModelBase ModelQRCode ModelFs ModelDebug SpecAPI SpecMedium.

(* the 32 files of a search; 0: before masking, 1: the mask, 2: masked, 3: the finished candidate *)
Definition draft_names : list path := flat_map (fun j => map (draft j) (seq 0 8)) (seq 0 4).
(* different names are different files *)
Definition told_apart (resolve : path -> Z) : Prop := forall a b, In a draft_names -> In b draft_names -> resolve a = resolve b -> a = b.

(* grey pictures through a lossy coder: the size comes back, and the levels up to t (of 65535) *)
Definition grey_keeps (t : Z) (jpeg : grey -> list (list Z)) (decode : list Z -> option grey) : Prop :=
  forall w h p, encodable ModelStandard.JpegEncoder w h -> exists p', decode (concat (jpeg (w, h, p))) = Some (w, h, p') /\
    forall x y, 0 <= x < w -> 0 <= y < h -> Z.abs (p x y - p' x y) <= t.
(* modules of 10 pixels behind a border of 10, sampled d pixels from their corner; dark: nearer to black than to white *)
Definition scan_grey (d n : Z) (p : Z -> Z -> Z) : list (list bool) := sampled n (fun x y => 2 * p (10 + x * 10 + d) (10 + y * 10 + d) <? 65535).

(* schedules in which every goroutine of the search gets enough turns: 8*6 steps, 8*4 drawings, 9 of the caller *)
Definition dround (r : list dactor) : Prop := forall a, In a all_actors -> In (Actor a) r.
Definition dfair (sched : list dactor) : Prop := exists rounds rest, sched = concat rounds ++ rest /\ length rounds = 89%nat /\ Forall dround rounds.

(* a history of the switch: calls of SetDebugMode, and queries with the value the environment variable has then *)
Inductive switch_event := Set_ | Query (env : list Z).
Fixpoint replay (sw : switch) (es : list switch_event) : switch * list bool :=
  match es with
  | [] => (sw, [])
  | Set_ :: r => replay (SetDebugMode sw) r
  | Query env :: r => let '(sw', b) := debugEnabled env sw in let '(sw'', bs) := replay sw' r in (sw'', b :: bs)
  end.
Definition queries (es : list switch_event) : list (list Z) := flat_map (fun e => match e with Set_ => [] | Query env => [env] end) es.
Definition says_yes (env : list Z) : Prop :=
  In env [[49]; [116; 114; 117; 101]; [84; 82; 85; 69]; [101; 110; 97; 98; 108; 101; 100]; [69; 78; 65; 66; 76; 69; 68]].
