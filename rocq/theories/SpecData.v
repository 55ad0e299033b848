(** * Specification: what the names in the static tables say

    Names in the game's packages follow conventions; the entries of the tables
    should agree with them and with one another. *)

From Coq Require Import ZArith List Bool.
From Verif Require Import Base NetTypes Data SpecBasic.

Definition starts (a s : str) : Prop := exists b, s = a ++ b.
Definition ends (b s : str) : Prop := exists a, s = a ++ b.

(** the classes of the hierarchy *)
Definition known_class (c : str) : Prop := exists d, In (c, d) PARENT_CLASSES \/ In (d, c) PARENT_CLASSES.
Definition descends (c d : str) : Prop := c = d \/ ancestor c d.

(** ** Attributes *)

(** the class [c] declares the property [p] *)
Definition declares (c p : str) (t : attribute_tag) : Prop :=
  ~ In ":"%byte c /\ ~ In ":"%byte p /\ In (c ++ ":"%byte :: p, t) ATTRIBUTES.

(** names of flags: a small b and a capital *)
Definition flag_name (p : str) : Prop :=
  exists x rest, p = "b"%byte :: x :: rest /\ (byteZ "A" <= byteZ x <= byteZ "Z")%Z.

(** ** Classes *)

(** names that tell the parent *)
Inductive parent_by_name : str -> str -> Prop :=
| pn_default x : parent_by_name (lit "TAGame.Default__" ++ x) (lit "TAGame." ++ x)
| pn_level x : In x level_classes -> parent_by_name (level ++ x) (lit "TAGame." ++ x)
| pn_info x : parent_by_name (x ++ lit ":GameReplicationInfoArchetype") (lit "TAGame.GRI_TA")
| pn_archetype x y : known_class (lit "TAGame." ++ y ++ lit "_TA") ->
    parent_by_name (lit "Archetypes." ++ x ++ lit "." ++ y) (lit "TAGame." ++ y ++ lit "_TA").

(** beginnings and ends of names that tell an ancestor *)
Definition family_starts : list (str * str) := map (fun x => (lit (fst x), lit (snd x)))
  [("TAGame.Ball_", "TAGame.Ball_TA"); ("TAGame.Car_", "TAGame.Car_TA");
   ("TAGame.CarComponent_", "TAGame.CarComponent_TA"); ("TAGame.GameEvent_", "TAGame.GameEvent_TA");
   ("TAGame.SpecialPickup_", "TAGame.SpecialPickup_TA"); ("TAGame.PRI_", "TAGame.PRI_TA");
   ("TAGame.Team_", "TAGame.Team_TA"); ("TAGame.ProductAttribute_", "TAGame.ProductAttribute_TA");
   ("TAGame.VehiclePickup_", "TAGame.VehiclePickup_TA");
   ("Archetypes.Ball.Ball_", "TAGame.Ball_TA"); ("Archetypes.Car.", "TAGame.Car_TA");
   ("Archetypes.CarComponents.", "TAGame.CarComponent_TA"); ("Archetypes.GameEvent.", "TAGame.GameEvent_TA");
   ("Archetypes.SpecialPickups.", "TAGame.SpecialPickup_TA"); ("Archetypes.Teams.", "TAGame.Team_TA")]%string.
Definition family_ends : list (str * str) := map (fun x => (lit (fst x), lit (snd x)))
  [(":Archetype", "TAGame.GameEvent_Soccar_TA"); (":CarArchetype", "TAGame.Car_TA")]%string.
(** the exceptions: spawners of balls, and a car among the events *)
Definition family_exceptions : list str := map lit
  ["TAGame.Ball_Spawner_TA"; "Archetypes.Ball.Ball_RingSpawner"; "Archetypes.GameEvent.GameEvent_Season:CarArchetype"]%string.

(** ** Spawning *)

(** what moves and turns *)
Definition turning : list str := map lit ["TAGame.RBActor_TA"; "TAGame.KeepUpIndicator_TA"]%string.
(** what is fixed in the level *)
Definition placed_in_level : list str :=
  map (fun x => lit "TAGame." ++ x) level_classes ++ map lit ["Engine.ZoneInfo"; "TAGame.HauntedBallTrapTrigger_TA"]%string.

(** ** Letter case *)

Definition lower (x : byte) : Z := let z := byteZ x in if ((65 <=? z) && (z <=? 90))%Z then (z + 32)%Z else z.
Definition same_but_case (a b : str) : Prop := map lower a = map lower b.
