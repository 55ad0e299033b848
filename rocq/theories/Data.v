(** * Static tables: model of /repo/src/data.rs

    Generated by /verif/tools/gen_data.py, entry by entry and in source order.
    A [phf::Map] is an association list; its keys are distinct (Proofs check
    it), so the order of entries is irrelevant. *)

From Coq Require Import List.
From Verif Require Import Base NetTypes.
Local Open Scope string_scope.

(** data.rs:3-18 *)
Definition SPAWN_STATS_src : list (string * spawn_trajectory) := [
  ("Engine.Actor", SpLocation);
  ("Engine.ZoneInfo", SpNone);
  ("TAGame.BreakOutActor_Platform_TA", SpNone);
  ("TAGame.CrowdActor_TA", SpNone);
  ("TAGame.CrowdManager_TA", SpNone);
  ("TAGame.HauntedBallTrapTrigger_TA", SpNone);
  ("TAGame.InMapScoreboard_TA", SpNone);
  ("TAGame.PlayerStart_Platform_TA", SpNone);
  ("TAGame.RBActor_TA", SpLocationAndRotation);
  ("TAGame.VehiclePickup_Boost_TA", SpNone);
  ("TAGame.KeepUpIndicator_TA", SpLocationAndRotation)
].

(** data.rs:21-321 *)
Definition ATTRIBUTES_src : list (string * attribute_tag) := [
  ("Engine.Actor:bBlockActors", TBoolean);
  ("Engine.Actor:bCollideActors", TBoolean);
  ("Engine.Actor:bCollideWorld", TBoolean);
  ("Engine.Actor:bHidden", TBoolean);
  ("Engine.Actor:bNetOwner", TBoolean);
  ("Engine.Actor:bTearOff", TBoolean);
  ("Engine.Actor:DrawScale", TFloat);
  ("Engine.Actor:RemoteRole", TEnum);
  ("Engine.Actor:Role", TEnum);
  ("Engine.Actor:Rotation", TRotationTag);
  ("Engine.GameReplicationInfo:bMatchIsOver", TBoolean);
  ("Engine.GameReplicationInfo:GameClass", TActiveActor);
  ("Engine.GameReplicationInfo:ServerName", TString);
  ("Engine.Pawn:bFastAttachedMove", TBoolean);
  ("Engine.Pawn:bIsCrouched", TBoolean);
  ("Engine.Pawn:bUsedByMatinee", TBoolean);
  ("Engine.Pawn:HealthMax", TInt);
  ("Engine.Pawn:PlayerReplicationInfo", TActiveActor);
  ("Engine.Pawn:RemoteViewPitch", TByte);
  ("Engine.PlayerReplicationInfo:bAdmin", TBoolean);
  ("Engine.PlayerReplicationInfo:bBot", TBoolean);
  ("Engine.PlayerReplicationInfo:bIsSpectator", TBoolean);
  ("Engine.PlayerReplicationInfo:bReadyToPlay", TBoolean);
  ("Engine.PlayerReplicationInfo:bTimedOut", TBoolean);
  ("Engine.PlayerReplicationInfo:bWaitingPlayer", TBoolean);
  ("Engine.PlayerReplicationInfo:Ping", TByte);
  ("Engine.PlayerReplicationInfo:PlayerID", TInt);
  ("Engine.PlayerReplicationInfo:PlayerName", TString);
  ("Engine.PlayerReplicationInfo:RemoteUserData", TString);
  ("Engine.PlayerReplicationInfo:Score", TInt);
  ("Engine.PlayerReplicationInfo:Team", TActiveActor);
  ("Engine.PlayerReplicationInfo:UniqueId", TUniqueId);
  ("Engine.ReplicatedActor_ORS:ReplicatedOwner", TActiveActor);
  ("Engine.TeamInfo:Score", TInt);
  ("ProjectX.GRI_X:bGameStarted", TBoolean);
  ("ProjectX.GRI_X:GameServerID", TQWordString);
  ("ProjectX.GRI_X:MatchGuid", TString);
  ("ProjectX.GRI_X:MatchGUID", TString);
  ("ProjectX.GRI_X:ReplicatedGameMutatorIndex", TInt);
  ("ProjectX.GRI_X:ReplicatedGamePlaylist", TInt);
  ("ProjectX.GRI_X:ReplicatedServerRegion", TString);
  ("ProjectX.GRI_X:Reservations", TReservation);
  ("TAGame.Ball_Breakout_TA:AppliedDamage", TAppliedDamage);
  ("TAGame.Ball_Breakout_TA:DamageIndex", TInt);
  ("TAGame.Ball_Breakout_TA:LastTeamTouch", TByte);
  ("TAGame.Ball_Fire_TA:TeamNumChangeTimestamp", TFloat);
  ("TAGame.Ball_God_TA:TargetSpeed", TFloat);
  ("TAGame.Ball_Haunted_TA:bIsBallBeamed", TBoolean);
  ("TAGame.Ball_Haunted_TA:DeactivatedGoalIndex", TByte);
  ("TAGame.Ball_Haunted_TA:LastTeamTouch", TByte);
  ("TAGame.Ball_Haunted_TA:ReplicatedBeamBrokenValue", TByte);
  ("TAGame.Ball_Haunted_TA:TotalActiveBeams", TByte);
  ("TAGame.Ball_Spawner_TA:SpawnDelaySeconds", TFloat);
  ("TAGame.Ball_Spawner_TA:SpawnedBall", TActiveActor);
  ("TAGame.Ball_TA:AdditionalCarGroundBounceScaleXY", TFloat);
  ("TAGame.Ball_TA:AdditionalCarGroundBounceScaleZ", TFloat);
  ("TAGame.Ball_TA:AirResistance", TLocation);
  ("TAGame.Ball_TA:BallHitSpinScale", TFloat);
  ("TAGame.Ball_TA:bPossessionEnabled", TBoolean);
  ("TAGame.Ball_TA:bWarnBallReset", TBoolean);
  ("TAGame.Ball_TA:GameBallIndex", TInt);
  ("TAGame.Ball_TA:GameEvent", TActiveActor);
  ("TAGame.Ball_TA:HitTeamNum", TByte);
  ("TAGame.Ball_TA:MagnusMinSpeed", TFloat);
  ("TAGame.Ball_TA:ReplicatedAddedCarBounceScale", TFloat);
  ("TAGame.Ball_TA:ReplicatedBallGravityScale", TFloat);
  ("TAGame.Ball_TA:ReplicatedBallMaxLinearSpeedScale", TFloat);
  ("TAGame.Ball_TA:ReplicatedBallScale", TFloat);
  ("TAGame.Ball_TA:ReplicatedExplosionData", TExplosion);
  ("TAGame.Ball_TA:ReplicatedExplosionDataExtended", TExtendedExplosion);
  ("TAGame.Ball_TA:ReplicatedPhysMatOverride", TActiveActor);
  ("TAGame.Ball_TA:ReplicatedWorldBounceScale", TFloat);
  ("TAGame.BallKeepUpComponent_TA:BallOwner", TActiveActor);
  ("TAGame.BallKeepUpComponent_TA:KeepUpState", TByte);
  ("TAGame.BallKeepUpComponent_TA:Score", TInt);
  ("TAGame.BreakOutActor_Platform_TA:DamageState", TDamageState);
  ("TAGame.CameraSettingsActor_TA:bMouseCameraToggleEnabled", TBoolean);
  ("TAGame.CameraSettingsActor_TA:bUsingBehindView", TBoolean);
  ("TAGame.CameraSettingsActor_TA:bUsingSecondaryCamera", TBoolean);
  ("TAGame.CameraSettingsActor_TA:bUsingSwivel", TBoolean);
  ("TAGame.CameraSettingsActor_TA:CameraPitch", TByte);
  ("TAGame.CameraSettingsActor_TA:CameraYaw", TByte);
  ("TAGame.CameraSettingsActor_TA:PRI", TActiveActor);
  ("TAGame.CameraSettingsActor_TA:ProfileSettings", TCamSettings);
  ("TAGame.Cannon_TA:FireCount", TByte);
  ("TAGame.Cannon_TA:Pitch", TFloat);
  ("TAGame.Car_KnockOut_TA:ReplicatedImpulse", TImpulse);
  ("TAGame.Car_KnockOut_TA:ReplicatedStateChanged", TByte);
  ("TAGame.Car_KnockOut_TA:ReplicatedStateName", TInt);
  ("TAGame.Car_KnockOut_TA:UsedAttackComponent", TActiveActor);
  ("TAGame.Car_TA:AddedBallForceMultiplier", TFloat);
  ("TAGame.Car_TA:AddedCarForceMultiplier", TFloat);
  ("TAGame.Car_TA:AttachedPickup", TActiveActor);
  ("TAGame.Car_TA:bUnlimitedJumps", TBoolean);
  ("TAGame.Car_TA:bUnlimitedTimeForDodge", TBoolean);
  ("TAGame.Car_TA:ClubColors", TClubColors);
  ("TAGame.Car_TA:DodgesRefreshedCounter", TInt);
  ("TAGame.Car_TA:ReplicatedCarMaxLinearSpeedScale", TFloat);
  ("TAGame.Car_TA:ReplicatedCarScale", TFloat);
  ("TAGame.Car_TA:ReplicatedDemolish_CustomFX", TDemolishFx);
  ("TAGame.Car_TA:ReplicatedDemolish", TDemolish);
  ("TAGame.Car_TA:ReplicatedDemolishExtended", TDemolishExtended);
  ("TAGame.Car_TA:ReplicatedDemolishGoalExplosion", TDemolishFx);
  ("TAGame.Car_TA:RumblePickups", TActiveActor);
  ("TAGame.Car_TA:TeamPaint", TTeamPaint);
  ("TAGame.CarComponent_AirActivate_TA:AirActivateCount", TInt);
  ("TAGame.CarComponent_Boost_TA:bNoBoost", TBoolean);
  ("TAGame.CarComponent_Boost_TA:BoostModifier", TFloat);
  ("TAGame.CarComponent_Boost_TA:BoostRestriction", TByte);
  ("TAGame.CarComponent_Boost_TA:bRechargeGroundOnly", TBoolean);
  ("TAGame.CarComponent_Boost_TA:bUnlimitedBoost", TBoolean);
  ("TAGame.CarComponent_Boost_TA:RechargeDelay", TFloat);
  ("TAGame.CarComponent_Boost_TA:RechargeRate", TFloat);
  ("TAGame.CarComponent_Boost_TA:ReplicatedBoost", TReplicatedBoost);
  ("TAGame.CarComponent_Boost_TA:ReplicatedBoostAmount", TByte);
  ("TAGame.CarComponent_Boost_TA:UnlimitedBoostRefCount", TInt);
  ("TAGame.CarComponent_Dodge_KO_TA:DodgeRotationCompressed", TInt);
  ("TAGame.CarComponent_Dodge_TA:DodgeImpulse", TLocation);
  ("TAGame.CarComponent_Dodge_TA:DodgeTorque", TLocation);
  ("TAGame.CarComponent_DoubleJump_TA:DoubleJumpImpulse", TLocation);
  ("TAGame.CarComponent_FlipCar_TA:bFlipRight", TBoolean);
  ("TAGame.CarComponent_FlipCar_TA:FlipCarTime", TFloat);
  ("TAGame.CarComponent_TA:ReplicatedActive", TByte);
  ("TAGame.CarComponent_TA:ReplicatedActivityTime", TFloat);
  ("TAGame.CarComponent_TA:Vehicle", TActiveActor);
  ("TAGame.CarComponent_Torque_TA:ReplicatedTorqueInput", TInt);
  ("TAGame.CarComponent_Torque_TA:TorqueScale", TFloat);
  ("TAGame.CrowdActor_TA:GameEvent", TActiveActor);
  ("TAGame.CrowdActor_TA:ModifiedNoise", TFloat);
  ("TAGame.CrowdActor_TA:ReplicatedCountDownNumber", TInt);
  ("TAGame.CrowdActor_TA:ReplicatedOneShotSound", TActiveActor);
  ("TAGame.CrowdActor_TA:ReplicatedRoundCountDownNumber", TInt);
  ("TAGame.CrowdManager_TA:GameEvent", TActiveActor);
  ("TAGame.CrowdManager_TA:ReplicatedGlobalOneShotSound", TActiveActor);
  ("TAGame.GameEvent_Soccar_TA:bAllowHonorDuels", TBoolean);
  ("TAGame.GameEvent_Soccar_TA:bBallHasBeenHit", TBoolean);
  ("TAGame.GameEvent_Soccar_TA:bClubMatch", TBoolean);
  ("TAGame.GameEvent_Soccar_TA:bDisableCrowdSound", TBoolean);
  ("TAGame.GameEvent_Soccar_TA:bFullClubMatch", TBoolean);
  ("TAGame.GameEvent_Soccar_TA:bFullMatchWinnerDecided", TBoolean);
  ("TAGame.GameEvent_Soccar_TA:bGoalsEnabled", TBoolean);
  ("TAGame.GameEvent_Soccar_TA:bMatchCreatorAdminEnabled", TBoolean);
  ("TAGame.GameEvent_Soccar_TA:bMatchEnded", TBoolean);
  ("TAGame.GameEvent_Soccar_TA:bNoContest", TBoolean);
  ("TAGame.GameEvent_Soccar_TA:bOverTime", TBoolean);
  ("TAGame.GameEvent_Soccar_TA:bReadyToStartGame", TBoolean);
  ("TAGame.GameEvent_Soccar_TA:bShouldSpawnGoalIndicators", TBoolean);
  ("TAGame.GameEvent_Soccar_TA:bShowIntroScene", TBoolean);
  ("TAGame.GameEvent_Soccar_TA:bUnlimitedTime", TBoolean);
  ("TAGame.GameEvent_Soccar_TA:GameTime", TInt);
  ("TAGame.GameEvent_Soccar_TA:GameWinner", TActiveActor);
  ("TAGame.GameEvent_Soccar_TA:MatchWinner", TActiveActor);
  ("TAGame.GameEvent_Soccar_TA:MaxScore", TInt);
  ("TAGame.GameEvent_Soccar_TA:MVP", TActiveActor);
  ("TAGame.GameEvent_Soccar_TA:ReplicatedMusicStinger", TMusicStinger);
  ("TAGame.GameEvent_Soccar_TA:ReplicatedScoredOnTeam", TByte);
  ("TAGame.GameEvent_Soccar_TA:ReplicatedServerPerformanceState", TByte);
  ("TAGame.GameEvent_Soccar_TA:ReplicatedStatEvent", TStatEvent);
  ("TAGame.GameEvent_Soccar_TA:RoundNum", TInt);
  ("TAGame.GameEvent_Soccar_TA:SecondsRemaining", TInt);
  ("TAGame.GameEvent_Soccar_TA:SeriesLength", TInt);
  ("TAGame.GameEvent_Soccar_TA:SubRulesArchetype", TActiveActor);
  ("TAGame.GameEvent_Soccar_TA:TotalGameBalls", TInt);
  ("TAGame.GameEvent_SoccarPrivate_TA:MatchSettings", TPrivateMatchSettings);
  ("TAGame.GameEvent_TA:bAllowReadyUp", TBoolean);
  ("TAGame.GameEvent_TA:bAlwaysShowMatchTypeLabel", TBoolean);
  ("TAGame.GameEvent_TA:bCanVoteToForfeit", TBoolean);
  ("TAGame.GameEvent_TA:bHasLeaveMatchPenalty", TBoolean);
  ("TAGame.GameEvent_TA:bIsBotMatch", TBoolean);
  ("TAGame.GameEvent_TA:BotSkill", TInt);
  ("TAGame.GameEvent_TA:GameMode", TGameMode);
  ("TAGame.GameEvent_TA:MatchStartEpoch", TInt64);
  ("TAGame.GameEvent_TA:MatchTypeClass", TActiveActor);
  ("TAGame.GameEvent_TA:ReplicatedGameStateTimeRemaining", TInt);
  ("TAGame.GameEvent_TA:ReplicatedRoundCountDownNumber", TInt);
  ("TAGame.GameEvent_TA:ReplicatedStateIndex", TByte);
  ("TAGame.GameEvent_TA:ReplicatedStateName", TInt);
  ("TAGame.GameEvent_TA:RichPresenceString", TString);
  ("TAGame.GameEvent_Team_TA:bDisableMutingOtherTeam", TBoolean);
  ("TAGame.GameEvent_Team_TA:bDisableQuickChat", TBoolean);
  ("TAGame.GameEvent_Team_TA:bForfeit", TBoolean);
  ("TAGame.GameEvent_Team_TA:MaxTeamSize", TInt);
  ("TAGame.GRI_TA:bAllowTargetFind", TBoolean);
  ("TAGame.GRI_TA:LanMatchGUID", TString);
  ("TAGame.GRI_TA:NewDedicatedServerIP", TString);
  ("TAGame.KeepUpIndicator_TA:ComponentOwner", TActiveActor);
  ("TAGame.MaxTimeWarningData_TA:EndGameEpochTime", TInt64);
  ("TAGame.MaxTimeWarningData_TA:EndGameWarningEpochTime", TInt64);
  ("TAGame.PickupTimer_TA:MaxTimeTillItem", TInt);
  ("TAGame.PickupTimer_TA:TimeTillItem", TInt);
  ("TAGame.PlayerStart_Platform_TA:bActive", TBoolean);
  ("TAGame.PRI_KnockOut_TA:bIsActiveMVP", TBoolean);
  ("TAGame.PRI_KnockOut_TA:bIsEliminated", TBoolean);
  ("TAGame.PRI_KnockOut_TA:Blocks", TInt);
  ("TAGame.PRI_KnockOut_TA:DamageCaused", TInt);
  ("TAGame.PRI_KnockOut_TA:EliminationOrder", TInt);
  ("TAGame.PRI_KnockOut_TA:Grabs", TInt);
  ("TAGame.PRI_KnockOut_TA:Hits", TInt);
  ("TAGame.PRI_KnockOut_TA:KnockoutDeaths", TInt);
  ("TAGame.PRI_KnockOut_TA:Knockouts", TInt);
  ("TAGame.PRI_TA:AnonymizedName", TString);
  ("TAGame.PRI_TA:bAnonymizeToOpponents", TBoolean);
  ("TAGame.PRI_TA:bAnonymizeToTeammates", TBoolean);
  ("TAGame.PRI_TA:bIdleBanned", TBoolean);
  ("TAGame.PRI_TA:bIsDistracted", TBoolean);
  ("TAGame.PRI_TA:bIsInSplitScreen", TBoolean);
  ("TAGame.PRI_TA:bMatchMVP", TBoolean);
  ("TAGame.PRI_TA:bOnlineLoadoutSet", TBoolean);
  ("TAGame.PRI_TA:bOnlineLoadoutsSet", TBoolean);
  ("TAGame.PRI_TA:BotBannerProductID", TInt);
  ("TAGame.PRI_TA:BotProductName", TInt);
  ("TAGame.PRI_TA:bReady", TBoolean);
  ("TAGame.PRI_TA:bReceivedAnonymizationSettings", TBoolean);
  ("TAGame.PRI_TA:bUsingBehindView", TBoolean);
  ("TAGame.PRI_TA:bUsingItems", TBoolean);
  ("TAGame.PRI_TA:bUsingSecondaryCamera", TBoolean);
  ("TAGame.PRI_TA:CameraPitch", TByte);
  ("TAGame.PRI_TA:CameraSettings", TCamSettings);
  ("TAGame.PRI_TA:CameraYaw", TByte);
  ("TAGame.PRI_TA:CarDemolitions", TInt);
  ("TAGame.PRI_TA:ClientLoadout", TLoadout);
  ("TAGame.PRI_TA:ClientLoadoutOnline", TLoadoutOnline);
  ("TAGame.PRI_TA:ClientLoadouts", TTeamLoadout);
  ("TAGame.PRI_TA:ClientLoadoutsOnline", TLoadoutsOnline);
  ("TAGame.PRI_TA:ClubID", TInt64);
  ("TAGame.PRI_TA:CurrentVoiceRoom", TString);
  ("TAGame.PRI_TA:EpicPUID", TString);
  ("TAGame.PRI_TA:KeepUpPossessions", TInt);
  ("TAGame.PRI_TA:MatchAssists", TInt);
  ("TAGame.PRI_TA:MatchBreakoutDamage", TInt);
  ("TAGame.PRI_TA:MatchDemolishes", TInt);
  ("TAGame.PRI_TA:MatchGoals", TInt);
  ("TAGame.PRI_TA:MatchSaves", TInt);
  ("TAGame.PRI_TA:MatchScore", TInt);
  ("TAGame.PRI_TA:MatchShots", TInt);
  ("TAGame.PRI_TA:MaxTimeTillItem", TInt);
  ("TAGame.PRI_TA:PartyLeader", TPartyLeader);
  ("TAGame.PRI_TA:PawnType", TByte);
  ("TAGame.PRI_TA:PersistentCamera", TActiveActor);
  ("TAGame.PRI_TA:PlayerHistoryKey", TPlayerHistoryKey);
  ("TAGame.PRI_TA:PlayerHistoryValid", TBoolean);
  ("TAGame.PRI_TA:PossessionClears", TInt);
  ("TAGame.PRI_TA:PossessionDenials", TInt);
  ("TAGame.PRI_TA:PossessionSteals", TInt);
  ("TAGame.PRI_TA:PrimaryTitle", TTitle);
  ("TAGame.PRI_TA:ReplicatedGameEvent", TActiveActor);
  ("TAGame.PRI_TA:ReplicatedWorstNetQualityBeyondLatency", TByte);
  ("TAGame.PRI_TA:RepStatTitles", TRepStatTitle);
  ("TAGame.PRI_TA:SecondaryTitle", TTitle);
  ("TAGame.PRI_TA:SelfDemolitions", TInt);
  ("TAGame.PRI_TA:SkillTier", TFlaggedByte);
  ("TAGame.PRI_TA:SpectatorShortcut", TInt);
  ("TAGame.PRI_TA:SteeringSensitivity", TFloat);
  ("TAGame.PRI_TA:TimeTillItem", TInt);
  ("TAGame.PRI_TA:Title", TInt);
  ("TAGame.PRI_TA:TotalGameTimePlayed", TFloat);
  ("TAGame.PRI_TA:TotalIdleTime", TFloat);
  ("TAGame.PRI_TA:TotalXP", TInt);
  ("TAGame.PRI_TA:ViralItemActor", TActiveActor);
  ("TAGame.RBActor_TA:bFrozen", TBoolean);
  ("TAGame.RBActor_TA:bIgnoreSyncing", TBoolean);
  ("TAGame.RBActor_TA:bReplayActor", TBoolean);
  ("TAGame.RBActor_TA:ReplicatedRBState", TRigidBody);
  ("TAGame.RBActor_TA:TeleportCounter", TByte);
  ("TAGame.RBActor_TA:WeldedInfo", TWelded);
  ("TAGame.RumblePickups_TA:AttachedPickup", TActiveActor);
  ("TAGame.RumblePickups_TA:ConcurrentItemCount", TInt);
  ("TAGame.RumblePickups_TA:PickupInfo", TPickupInfo);
  ("TAGame.SpecialPickup_BallFreeze_TA:RepOrigSpeed", TFloat);
  ("TAGame.SpecialPickup_BallVelcro_TA:AttachTime", TFloat);
  ("TAGame.SpecialPickup_BallVelcro_TA:bBroken", TBoolean);
  ("TAGame.SpecialPickup_BallVelcro_TA:bHit", TBoolean);
  ("TAGame.SpecialPickup_BallVelcro_TA:BreakTime", TFloat);
  ("TAGame.SpecialPickup_Football_TA:WeldedBall", TActiveActor);
  ("TAGame.SpecialPickup_Rugby_TA:bBallWelded", TBoolean);
  ("TAGame.SpecialPickup_Targeted_TA:Targeted", TActiveActor);
  ("TAGame.Stunlock_TA:Car", TActiveActor);
  ("TAGame.Stunlock_TA:MashTime", TFloat);
  ("TAGame.Stunlock_TA:MaxStunTime", TFloat);
  ("TAGame.Stunlock_TA:StunTimeRemaining", TFloat);
  ("TAGame.Team_Soccar_TA:GameScore", TInt);
  ("TAGame.Team_TA:ClubColors", TClubColors);
  ("TAGame.Team_TA:ClubID", TInt64);
  ("TAGame.Team_TA:CustomTeamName", TString);
  ("TAGame.Team_TA:Difficulty", TInt);
  ("TAGame.Team_TA:GameEvent", TActiveActor);
  ("TAGame.Team_TA:LogoData", TLogoData);
  ("TAGame.Vehicle_TA:bDriving", TBoolean);
  ("TAGame.Vehicle_TA:bHasPostMatchCelebration", TBoolean);
  ("TAGame.Vehicle_TA:bPodiumMode", TBoolean);
  ("TAGame.Vehicle_TA:bReplicatedHandbrake", TBoolean);
  ("TAGame.Vehicle_TA:InputRestriction", TByte);
  ("TAGame.Vehicle_TA:ReplicatedSteer", TByte);
  ("TAGame.Vehicle_TA:ReplicatedThrottle", TByte);
  ("TAGame.VehiclePickup_TA:bNoPickup", TBoolean);
  ("TAGame.VehiclePickup_TA:NewReplicatedPickupData", TPickupNew);
  ("TAGame.VehiclePickup_TA:ReplicatedPickupData", TPickup);
  ("TAGame.ViralItemActor_TA:ClientFXInfectedType", TByte);
  ("TAGame.ViralItemActor_TA:InfectedStatus", TByte)
].

(** data.rs:324-610 *)
Definition PARENT_CLASSES_src : list (string * string) := [
  ("Archetypes.Ball.Ball_Anniversary", "TAGame.Ball_TA");
  ("Archetypes.Ball.Ball_BasketBall_Mutator", "TAGame.Ball_TA");
  ("Archetypes.Ball.Ball_Basketball", "TAGame.Ball_TA");
  ("Archetypes.Ball.Ball_BasketBall", "TAGame.Ball_TA");
  ("Archetypes.Ball.Ball_Beachball", "TAGame.Ball_TA");
  ("Archetypes.Ball.Ball_Breakout", "TAGame.Ball_Breakout_TA");
  ("Archetypes.Ball.Ball_Default", "TAGame.Ball_TA");
  ("Archetypes.Ball.Ball_Ekin", "TAGame.Ball_TA");
  ("Archetypes.Ball.Ball_Fire_Obstacle", "TAGame.Ball_Fire_TA");
  ("Archetypes.Ball.Ball_Fire", "TAGame.Ball_Fire_TA");
  ("Archetypes.Ball.Ball_Football", "TAGame.Ball_TA");
  ("Archetypes.Ball.Ball_God", "TAGame.Ball_God_TA");
  ("Archetypes.Ball.Ball_Haunted", "TAGame.Ball_Haunted_TA");
  ("Archetypes.Ball.ball_luminousairplane", "TAGame.Ball_TA");
  ("Archetypes.Ball.Ball_PizzaPuck", "TAGame.Ball_TA");
  ("Archetypes.Ball.Ball_Puck", "TAGame.Ball_TA");
  ("Archetypes.Ball.Ball_RingSpawner", "TAGame.Ball_Spawner_TA");
  ("Archetypes.Ball.Ball_Score", "TAGame.Ball_Breakout_TA");
  ("Archetypes.Ball.Ball_Shoe", "TAGame.Ball_TA");
  ("Archetypes.Ball.Ball_SpookyBalloon", "TAGame.Ball_TA");
  ("Archetypes.Ball.Ball_Strike", "TAGame.Ball_TA");
  ("Archetypes.Ball.Ball_Training", "TAGame.Ball_Tutorial_TA");
  ("Archetypes.Ball.Ball_Trajectory", "TAGame.Ball_Trajectory_TA");
  ("Archetypes.Ball.Ball_Tutorial", "TAGame.Ball_Tutorial_TA");
  ("Archetypes.Ball.Ball_WorldCup", "TAGame.Ball_TA");
  ("Archetypes.Ball.BallComponent_KeepUp", "TAGame.BallKeepUpComponent_TA");
  ("Archetypes.Ball.CubeBall", "TAGame.Ball_TA");
  ("Archetypes.Car.Car_Default", "TAGame.Car_TA");
  ("Archetypes.Car.Car_PostGameLobby", "TAGame.Car_Freeplay_TA");
  ("Archetypes.CarComponents.CarComponent_Boost", "TAGame.CarComponent_Boost_TA");
  ("Archetypes.CarComponents.CarComponent_Dodge", "TAGame.CarComponent_Dodge_TA");
  ("Archetypes.CarComponents.CarComponent_DoubleJump", "TAGame.CarComponent_DoubleJump_TA");
  ("Archetypes.CarComponents.CarComponent_FlipCar", "TAGame.CarComponent_FlipCar_TA");
  ("Archetypes.CarComponents.CarComponent_Jump", "TAGame.CarComponent_Jump_TA");
  ("Archetypes.CarComponents.CarComponent_TerritoryDemolish", "TAGame.CarComponent_TerritoryDemolish_TA");
  ("Archetypes.GameEvent.GameEvent_Basketball", "TAGame.GameEvent_Soccar_TA");
  ("Archetypes.GameEvent.GameEvent_BasketballPrivate", "TAGame.GameEvent_SoccarPrivate_TA");
  ("Archetypes.GameEvent.GameEvent_BasketballSplitscreen", "TAGame.GameEvent_SoccarSplitscreen_TA");
  ("Archetypes.GameEvent.GameEvent_Breakout", "TAGame.GameEvent_Breakout_TA");
  ("Archetypes.GameEvent.GameEvent_FTE_Part1_Prime", "TAGame.GameEvent_FTE_TA");
  ("Archetypes.GameEvent.GameEvent_Hockey", "TAGame.GameEvent_Soccar_TA");
  ("Archetypes.GameEvent.GameEvent_HockeyPrivate", "TAGame.GameEvent_SoccarPrivate_TA");
  ("Archetypes.GameEvent.GameEvent_HockeySplitscreen", "TAGame.GameEvent_SoccarSplitscreen_TA");
  ("Archetypes.GameEvent.GameEvent_Items", "TAGame.GameEvent_Soccar_TA");
  ("Archetypes.GameEvent.GameEvent_Season:CarArchetype", "TAGame.Car_Season_TA");
  ("Archetypes.GameEvent.GameEvent_Season", "TAGame.GameEvent_Season_TA");
  ("Archetypes.GameEvent.GameEvent_Soccar", "TAGame.GameEvent_Soccar_TA");
  ("Archetypes.GameEvent.GameEvent_SoccarLan", "TAGame.GameEvent_Soccar_TA");
  ("Archetypes.GameEvent.GameEvent_SoccarPrivate", "TAGame.GameEvent_SoccarPrivate_TA");
  ("Archetypes.GameEvent.GameEvent_SoccarSplitscreen", "TAGame.GameEvent_SoccarSplitscreen_TA");
  ("Archetypes.GameEvent.GameEvent_Tutorial_Advanced", "TAGame.GameEvent_Tutorial_Advanced_TA");
  ("Archetypes.GameEvent.GameEvent_Tutorial_Basic", "TAGame.GameEvent_Tutorial_Basic_TA");
  ("Archetypes.GameEvent.GameEvent_Tutorial_FreePlay", "TAGame.GameEvent_Tutorial_FreePlay_TA");
  ("Archetypes.KnockOut.GameEvent_Knockout:CarArchetype.Boost", "TAGame.CarComponent_Boost_KO_TA");
  ("Archetypes.KnockOut.GameEvent_Knockout:CarArchetype.Dodge", "TAGame.CarComponent_Dodge_KO_TA");
  ("Archetypes.KnockOut.GameEvent_Knockout:CarArchetype.DoubleJump", "TAGame.CarComponent_DoubleJump_TA");
  ("Archetypes.KnockOut.GameEvent_Knockout:CarArchetype.Flip", "TAGame.CarComponent_FlipCar_TA");
  ("Archetypes.KnockOut.GameEvent_Knockout:CarArchetype.Jump", "TAGame.CarComponent_Jump_TA");
  ("Archetypes.KnockOut.GameEvent_Knockout:CarArchetype.StunlockArchetype", "TAGame.Stunlock_TA");
  ("Archetypes.KnockOut.GameEvent_Knockout:CarArchetype.Torque", "TAGame.CarComponent_Torque_TA");
  ("Archetypes.KnockOut.GameEvent_Knockout:CarArchetype", "TAGame.Car_KnockOut_TA");
  ("Archetypes.KnockOut.GameEvent_Knockout", "TAGame.GameEvent_KnockOut_TA");
  ("Archetypes.Misc.KeepUpIndicator", "TAGame.KeepUpIndicator_TA");
  ("Archetypes.Mutators.Mutator_Robin:AutoFlip", "TAGame.CarComponent_FlipCar_TA");
  ("Archetypes.Mutators.Mutator_Robin:DoubleJump", "TAGame.CarComponent_DoubleJump_Robin_TA");
  ("Archetypes.Mutators.Mutator_Robin:Jump", "TAGame.CarComponent_Jump_Robin_TA");
  ("Archetypes.Mutators.SubRules.ItemsMode_RPS:DispenserArchetype.ItemPool.Obj_1", "TAGame.SpecialPickup_BallCarSpring_TA");
  ("Archetypes.Mutators.SubRules.ItemsMode_RPS:DispenserArchetype.ItemPool.Obj_2", "TAGame.SpecialPickup_BallFreeze_TA");
  ("Archetypes.Mutators.SubRules.ItemsMode_RPS:DispenserArchetype.ItemPool.Obj", "TAGame.SpecialPickup_BallCarSpring_TA");
  ("Archetypes.SpecialPickups.BM.SpecialPickup_BallFreeze_BM", "TAGame.SpecialPickup_BallFreeze_TA");
  ("Archetypes.SpecialPickups.SpecialPickup_BallFreeze", "TAGame.SpecialPickup_BallFreeze_TA");
  ("Archetypes.SpecialPickups.SpecialPickup_BallGrapplingHook", "TAGame.SpecialPickup_GrapplingHook_TA");
  ("Archetypes.SpecialPickups.SpecialPickup_BallLasso", "TAGame.SpecialPickup_BallLasso_TA");
  ("Archetypes.SpecialPickups.SpecialPickup_BallSpring", "TAGame.SpecialPickup_BallCarSpring_TA");
  ("Archetypes.SpecialPickups.SpecialPickup_BallVelcro", "TAGame.SpecialPickup_BallVelcro_TA");
  ("Archetypes.SpecialPickups.SpecialPickup_Batarang", "TAGame.SpecialPickup_Batarang_TA");
  ("Archetypes.SpecialPickups.SpecialPickup_BoostOverride", "TAGame.SpecialPickup_BoostOverride_TA");
  ("Archetypes.SpecialPickups.SpecialPickup_CarSpring", "TAGame.SpecialPickup_BallCarSpring_TA");
  ("Archetypes.SpecialPickups.SpecialPickup_Football", "TAGame.SpecialPickup_Football_TA");
  ("Archetypes.SpecialPickups.SpecialPickup_GravityWell", "TAGame.SpecialPickup_BallGravity_TA");
  ("Archetypes.SpecialPickups.SpecialPickup_HauntedBallBeam", "TAGame.SpecialPickup_HauntedBallBeam_TA");
  ("Archetypes.SpecialPickups.SpecialPickup_Rugby", "TAGame.SpecialPickup_Rugby_TA");
  ("Archetypes.SpecialPickups.SpecialPickup_RugbyLightDark", "TAGame.SpecialPickup_Rugby_TA");
  ("Archetypes.SpecialPickups.SpecialPickup_StrongHit", "TAGame.SpecialPickup_HitForce_TA");
  ("Archetypes.SpecialPickups.SpecialPickup_Swapper", "TAGame.SpecialPickup_Swapper_TA");
  ("Archetypes.SpecialPickups.SpecialPickup_Tornado", "TAGame.SpecialPickup_Tornado_TA");
  ("Archetypes.Teams.Team0", "TAGame.Team_Soccar_TA");
  ("Archetypes.Teams.Team1", "TAGame.Team_Soccar_TA");
  ("Archetypes.Teams.TeamWhite0", "TAGame.Team_Freeplay_TA");
  ("Archetypes.Teams.TeamWhite1", "TAGame.Team_Freeplay_TA");
  ("Archetypes.Tutorial.Cannon", "TAGame.Cannon_TA");
  ("Engine.Actor", "Core.Object");
  ("Engine.GameReplicationInfo", "Engine.ReplicationInfo");
  ("Engine.Info", "Engine.Actor");
  ("Engine.NavigationPoint", "Engine.Actor");
  ("Engine.Pawn", "Engine.Actor");
  ("Engine.PlayerReplicationInfo", "Engine.ReplicationInfo");
  ("Engine.PlayerStart", "Engine.NavigationPoint");
  ("Engine.ReplicatedActor_ORS", "Engine.Actor");
  ("Engine.ReplicationInfo", "Engine.Info");
  ("Engine.TeamInfo", "Engine.Info");
  ("Engine.WorldInfo", "Engine.ZoneInfo");
  ("Engine.ZoneInfo", "Engine.Info");
  ("GameInfo_Basketball.GameInfo.GameInfo_Basketball:Archetype", "TAGame.GameEvent_Soccar_TA");
  ("GameInfo_Basketball.GameInfo.GameInfo_Basketball:GameReplicationInfoArchetype", "TAGame.GRI_TA");
  ("GameInfo_Breakout.GameInfo.GameInfo_Breakout:GameReplicationInfoArchetype", "TAGame.GRI_TA");
  ("GameInfo_FootBall.GameInfo.GameInfo_FootBall:Archetype", "TAGame.GameEvent_Football_TA");
  ("GameInfo_FootBall.GameInfo.GameInfo_FootBall:GameReplicationInfoArchetype", "TAGame.GRI_TA");
  ("GameInfo_FTE.GameInfo.GameInfo_FTE:GameReplicationInfoArchetype", "TAGame.GRI_TA");
  ("gameinfo_godball.GameInfo.gameinfo_godball:Archetype", "TAGame.GameEvent_GodBall_TA");
  ("GameInfo_GodBall.GameInfo.GameInfo_GodBall:Archetype", "TAGame.GameEvent_GodBall_TA");
  ("gameinfo_godball.GameInfo.gameinfo_godball:GameReplicationInfoArchetype", "TAGame.GRI_TA");
  ("GameInfo_GodBall.GameInfo.GameInfo_GodBall:GameReplicationInfoArchetype", "TAGame.GRI_TA");
  ("GameInfo_HeatseekerTerritory.GameInfo.GameInfo_HeatseekerTerritory:Archetype", "TAGame.GameEvent_Soccar_TA");
  ("GameInfo_HeatseekerTerritory.GameInfo.GameInfo_HeatseekerTerritory:GameReplicationInfoArchetype", "TAGame.GRI_TA");
  ("Gameinfo_Hockey.GameInfo.Gameinfo_Hockey:Archetype", "TAGame.GameEvent_Soccar_TA");
  ("Gameinfo_Hockey.GameInfo.Gameinfo_Hockey:GameReplicationInfoArchetype", "TAGame.GRI_TA");
  ("GameInfo_Hops.GameInfo.GameInfo_Hops:Archetype", "TAGame.GameEvent_Soccar_TA");
  ("GameInfo_Hops.GameInfo.GameInfo_Hops:GameReplicationInfoArchetype", "TAGame.GRI_TA");
  ("GameInfo_Items.GameInfo.GameInfo_Items:GameReplicationInfoArchetype", "TAGame.GRI_TA");
  ("GameInfo_KnockOut.KnockOut.GameInfo_KnockOut:GameReplicationInfoArchetype", "TAGame.GRI_TA");
  ("GameInfo_LTM_AprilFool.GameInfo.GameInfo_LTM_AprilFool:Archetype", "TAGame.GameEvent_Soccar_TA");
  ("GameInfo_LTM_AprilFool.GameInfo.GameInfo_LTM_AprilFool:GameReplicationInfoArchetype", "TAGame.GRI_TA");
  ("GameInfo_LTM_BeachBall.GameInfo.GameInfo_LTM_BeachBall:Archetype", "TAGame.GameEvent_Soccar_TA");
  ("GameInfo_LTM_BeachBall.GameInfo.GameInfo_LTM_BeachBall:GameReplicationInfoArchetype", "TAGame.GRI_TA");
  ("GameInfo_LTM_DropshotRumble.GameInfo.GameInfo_LTM_DropshotRumble:Archetype", "TAGame.GameEvent_Soccar_TA");
  ("GameInfo_LTM_DropshotRumble.GameInfo.GameInfo_LTM_DropshotRumble:GameReplicationInfoArchetype", "TAGame.GRI_TA");
  ("GameInfo_LTM_SpeedDemon.GameInfo.GameInfo_LTM_SpeedDemon:Archetype", "TAGame.GameEvent_Soccar_TA");
  ("GameInfo_LTM_SpeedDemon.GameInfo.GameInfo_LTM_SpeedDemon:GameReplicationInfoArchetype", "TAGame.GRI_TA");
  ("GameInfo_LTM_SpikeRush.GameInfo.GameInfo_LTM_SpikeRush:Archetype", "TAGame.GameEvent_Soccar_TA");
  ("GameInfo_LTM_SpikeRush.GameInfo.GameInfo_LTM_SpikeRush:GameReplicationInfoArchetype", "TAGame.GRI_TA");
  ("GameInfo_LTM_SuperCube.GameInfo.GameInfo_LTM_SuperCube:Archetype", "TAGame.GameEvent_Soccar_TA");
  ("GameInfo_LTM_SuperCube.GameInfo.GameInfo_LTM_SuperCube:GameReplicationInfoArchetype", "TAGame.GRI_TA");
  ("GameInfo_MagnusFutball.GameInfo.GameInfo_MagnusFutball:Archetype", "TAGame.GameEvent_Soccar_TA");
  ("GameInfo_MagnusFutball.GameInfo.GameInfo_MagnusFutball:GameReplicationInfoArchetype", "TAGame.GRI_TA");
  ("GameInfo_Possession.GameInfo.GameInfo_Possession:Archetype", "TAGame.GameEvent_Soccar_TA");
  ("GameInfo_Possession.GameInfo.GameInfo_Possession:GameReplicationInfoArchetype", "TAGame.GRI_TA");
  ("GameInfo_Season.GameInfo.GameInfo_Season:GameReplicationInfoArchetype", "TAGame.GRI_TA");
  ("GameInfo_SnowDayTerritory.GameInfo.GameInfo_SnowDayTerritory:Archetype", "TAGame.GameEvent_Territory_TA");
  ("GameInfo_SnowDayTerritory.GameInfo.GameInfo_SnowDayTerritory:GameReplicationInfoArchetype", "TAGame.GRI_TA");
  ("GameInfo_Soccar.GameInfo.GameInfo_Soccar:GameReplicationInfoArchetype", "TAGame.GRI_TA");
  ("GameInfo_SpikeDrop.GameInfo.GameInfo_SpikeDrop:Archetype", "TAGame.GameEvent_Soccar_TA");
  ("GameInfo_SpikeDrop.GameInfo.GameInfo_SpikeDrop:GameReplicationInfoArchetype", "TAGame.GRI_TA");
  ("GameInfo_Territory.GameInfo.GameInfo_Territory:Archetype", "TAGame.GameEvent_Territory_TA");
  ("GameInfo_Territory.GameInfo.GameInfo_Territory:GameReplicationInfoArchetype", "TAGame.GRI_TA");
  ("GameInfo_Tutorial.GameEvent.GameEvent_Tutorial_Aerial", "TAGame.GameEvent_Training_Aerial_TA");
  ("GameInfo_Tutorial.GameEvent.GameEvent_Tutorial_Goalie", "TAGame.GameEvent_Training_Goalie_TA");
  ("GameInfo_Tutorial.GameEvent.GameEvent_Tutorial_Striker", "TAGame.GameEvent_Training_Striker_TA");
  ("GameInfo_Tutorial.GameInfo.GameInfo_Tutorial:GameReplicationInfoArchetype", "TAGame.GRI_TA");
  ("Haunted_TrainStation_P.TheWorld:PersistentLevel.HauntedBallTrapTrigger_TA_0", "TAGame.HauntedBallTrapTrigger_TA");
  ("Haunted_TrainStation_P.TheWorld:PersistentLevel.HauntedBallTrapTrigger_TA_1", "TAGame.HauntedBallTrapTrigger_TA");
  ("Mutators.Mutators.Mutators.FreePlay:CarArchetype", "TAGame.Car_Freeplay_TA");
  ("Mutators.Mutators.Mutators.OnlineFreeplay:CarArchetype", "TAGame.Car_Freeplay_TA");
  ("ProjectX.Default__NetModeReplicator_X", "ProjectX.NetModeReplicator_X");
  ("ProjectX.GRI_X", "Engine.GameReplicationInfo");
  ("ProjectX.NetModeReplicator_X", "Engine.ReplicationInfo");
  ("ProjectX.Pawn_X", "Engine.Pawn");
  ("ProjectX.PRI_X", "Engine.PlayerReplicationInfo");
  ("TAGame.Ball_Breakout_TA", "TAGame.Ball_TA");
  ("TAGame.Ball_Fire_TA", "TAGame.Ball_God_TA");
  ("TAGame.Ball_God_TA", "TAGame.Ball_TA");
  ("TAGame.Ball_Haunted_TA", "TAGame.Ball_TA");
  ("TAGame.Ball_Spawner_TA", "Engine.Actor");
  ("TAGame.Ball_TA", "TAGame.RBActor_TA");
  ("TAGame.Ball_Trajectory_TA", "TAGame.Ball_TA");
  ("TAGame.Ball_Tutorial_TA", "TAGame.Ball_TA");
  ("TAGame.BallKeepUpComponent_TA", "Engine.ReplicatedActor_ORS");
  ("TAGame.BreakOutActor_Platform_TA", "Engine.Actor");
  ("TAGame.CameraSettingsActor_TA", "Engine.ReplicationInfo");
  ("TAGame.Cannon_TA", "Engine.Actor");
  ("TAGame.Car_Freeplay_TA", "TAGame.Car_TA");
  ("TAGame.Car_KnockOut_TA", "TAGame.Car_TA");
  ("TAGame.Car_Season_TA", "TAGame.Car_TA");
  ("TAGame.Car_TA", "TAGame.Vehicle_TA");
  ("TAGame.CarComponent_AirActivate_TA", "TAGame.CarComponent_TA");
  ("TAGame.CarComponent_Boost_KO_TA", "TAGame.CarComponent_Boost_TA");
  ("TAGame.CarComponent_Boost_TA", "TAGame.CarComponent_AirActivate_TA");
  ("TAGame.CarComponent_Dodge_KO_TA", "TAGame.CarComponent_Dodge_TA");
  ("TAGame.CarComponent_Dodge_TA", "TAGame.CarComponent_AirActivate_TA");
  ("TAGame.CarComponent_DoubleJump_KO_TA", "TAGame.CarComponent_DoubleJump_TA");
  ("TAGame.CarComponent_DoubleJump_Robin_TA", "TAGame.CarComponent_DoubleJump_TA");
  ("TAGame.CarComponent_DoubleJump_TA", "TAGame.CarComponent_AirActivate_TA");
  ("TAGame.CarComponent_FlipCar_TA", "TAGame.CarComponent_TA");
  ("TAGame.CarComponent_Jump_Robin_TA", "TAGame.CarComponent_Jump_TA");
  ("TAGame.CarComponent_Jump_TA", "TAGame.CarComponent_TA");
  ("TAGame.CarComponent_TA", "Engine.ReplicationInfo");
  ("TAGame.CarComponent_TerritoryDemolish_TA", "TAGame.CarComponent_TA");
  ("TAGame.CarComponent_Torque_TA", "TAGame.CarComponent_TA");
  ("TAGame.CrowdActor_TA", "Engine.ReplicationInfo");
  ("TAGame.CrowdManager_TA", "Engine.ReplicationInfo");
  ("TAGame.Default__CameraSettingsActor_TA", "TAGame.CameraSettingsActor_TA");
  ("TAGame.Default__Car_TA", "TAGame.Car_TA");
  ("TAGame.Default__FreeplayCommands_TA", "TAGame.FreeplayCommands_TA");
  ("TAGame.Default__MaxTimeWarningData_TA", "TAGame.MaxTimeWarningData_TA");
  ("TAGame.Default__PickupTimer_TA", "TAGame.PickupTimer_TA");
  ("TAGame.Default__PRI_Breakout_TA", "TAGame.PRI_Breakout_TA");
  ("TAGame.Default__PRI_KnockOut_TA", "TAGame.PRI_KnockOut_TA");
  ("TAGame.Default__PRI_Possession_TA", "TAGame.PRI_Possession_TA");
  ("TAGame.Default__PRI_TA", "TAGame.PRI_TA");
  ("TAGame.Default__RumblePickups_TA", "TAGame.RumblePickups_TA");
  ("TAGame.Default__TrackerWallDynamicMeshActor_TA", "TAGame.TrackerWallDynamicMeshActor_TA");
  ("TAGame.Default__ViralItemActor_TA", "TAGame.ViralItemActor_TA");
  ("TAGame.Default__VoteActor_TA", "TAGame.VoteActor_TA");
  ("TAGame.DynamicMeshActor_TA", "Engine.Actor");
  ("TAGame.FreeplayCommands_TA", "Engine.Actor");
  ("TAGame.GameEvent_Breakout_TA", "TAGame.GameEvent_Soccar_TA");
  ("TAGame.GameEvent_Football_TA", "TAGame.GameEvent_Soccar_TA");
  ("TAGame.GameEvent_FTE_TA", "TAGame.GameEvent_Soccar_TA");
  ("TAGame.GameEvent_GodBall_TA", "TAGame.GameEvent_Soccar_TA");
  ("TAGame.GameEvent_KnockOut_TA", "TAGame.GameEvent_Soccar_TA");
  ("TAGame.GameEvent_Season_TA", "TAGame.GameEvent_Soccar_TA");
  ("TAGame.GameEvent_Soccar_TA", "TAGame.GameEvent_Team_TA");
  ("TAGame.GameEvent_SoccarPrivate_TA", "TAGame.GameEvent_Soccar_TA");
  ("TAGame.GameEvent_SoccarSplitscreen_TA", "TAGame.GameEvent_SoccarPrivate_TA");
  ("TAGame.GameEvent_TA", "Engine.ReplicationInfo");
  ("TAGame.GameEvent_Team_TA", "TAGame.GameEvent_TA");
  ("TAGame.GameEvent_Territory_TA", "TAGame.GameEvent_Soccar_TA");
  ("TAGame.GameEvent_Training_Aerial_TA", "TAGame.GameEvent_Training_TA");
  ("TAGame.GameEvent_Training_Goalie_TA", "TAGame.GameEvent_Training_TA");
  ("TAGame.GameEvent_Training_Striker_TA", "TAGame.GameEvent_Training_TA");
  ("TAGame.GameEvent_Training_TA", "TAGame.GameEvent_Tutorial_TA");
  ("TAGame.GameEvent_Tutorial_Advanced_TA", "TAGame.GameEvent_Tutorial_Basic_TA");
  ("TAGame.GameEvent_Tutorial_Basic_TA", "TAGame.GameEvent_Tutorial_TA");
  ("TAGame.GameEvent_Tutorial_FreePlay_TA", "TAGame.GameEvent_Tutorial_TA");
  ("TAGame.GameEvent_Tutorial_TA", "TAGame.GameEvent_Soccar_TA");
  ("TAGame.GRI_TA", "ProjectX.GRI_X");
  ("TAGame.HauntedBallTrapTrigger_TA", "TAGame.DynamicMeshActor_TA");
  ("TAGame.InMapScoreboard_TA", "Engine.Actor");
  ("TAGame.KeepUpIndicator_TA", "Engine.Actor");
  ("TAGame.MaxTimeWarningData_TA", "Engine.ReplicatedActor_ORS");
  ("TAGame.PickupTimer_TA", "TAGame.CarComponent_TA");
  ("TAGame.PlayerStart_Platform_TA", "Engine.Actor");
  ("TAGame.PRI_Breakout_TA", "TAGame.PRI_TA");
  ("TAGame.PRI_KnockOut_TA", "TAGame.PRI_TA");
  ("TAGame.PRI_Possession_TA", "TAGame.PRI_TA");
  ("TAGame.PRI_TA", "ProjectX.PRI_X");
  ("TAGame.ProductAttribute_Blueprint_TA", "TAGame.ProductAttribute_TA");
  ("TAGame.ProductAttribute_BlueprintCost_TA", "TAGame.ProductAttribute_TA");
  ("TAGame.ProductAttribute_Certified_TA", "TAGame.ProductAttribute_TA");
  ("TAGame.ProductAttribute_NoNotify_TA", "TAGame.ProductAttribute_TA");
  ("TAGame.ProductAttribute_Painted_TA", "TAGame.ProductAttribute_TA");
  ("TAGame.ProductAttribute_Quality_TA", "TAGame.ProductAttribute_TA");
  ("TAGame.ProductAttribute_SpecialEdition_TA", "TAGame.ProductAttribute_TA");
  ("TAGame.ProductAttribute_TA", "Core.Object");
  ("TAGame.ProductAttribute_TeamEdition_TA", "TAGame.ProductAttribute_TA");
  ("TAGame.ProductAttribute_TitleID_TA", "TAGame.ProductAttribute_TA");
  ("TAGame.ProductAttribute_UserColor_TA", "TAGame.ProductAttribute_TA");
  ("TAGame.RBActor_TA", "ProjectX.Pawn_X");
  ("TAGame.Replay_Soccar_TA", "TAGame.Replay_TA");
  ("TAGame.Replay_TA", "Core.Object");
  ("TAGame.RumblePickups_TA", "Engine.Actor");
  ("TAGame.SaveData_GameEditor_Training_TA", "Core.Object");
  ("TAGame.SpecialPickup_BallCarSpring_TA", "TAGame.SpecialPickup_Spring_TA");
  ("TAGame.SpecialPickup_BallFreeze_TA", "TAGame.SpecialPickup_Targeted_TA");
  ("TAGame.SpecialPickup_BallGravity_TA", "TAGame.SpecialPickup_TA");
  ("TAGame.SpecialPickup_BallLasso_TA", "TAGame.SpecialPickup_Spring_TA");
  ("TAGame.SpecialPickup_BallVelcro_TA", "TAGame.SpecialPickup_TA");
  ("TAGame.SpecialPickup_Batarang_TA", "TAGame.SpecialPickup_BallLasso_TA");
  ("TAGame.SpecialPickup_BoostOverride_TA", "TAGame.SpecialPickup_Targeted_TA");
  ("TAGame.SpecialPickup_Football_TA", "TAGame.SpecialPickup_TA");
  ("TAGame.SpecialPickup_GrapplingHook_TA", "TAGame.SpecialPickup_Targeted_TA");
  ("TAGame.SpecialPickup_HauntedBallBeam_TA", "TAGame.SpecialPickup_BallGravity_TA");
  ("TAGame.SpecialPickup_HitForce_TA", "TAGame.SpecialPickup_TA");
  ("TAGame.SpecialPickup_Rugby_TA", "TAGame.SpecialPickup_TA");
  ("TAGame.SpecialPickup_Spring_TA", "TAGame.SpecialPickup_Targeted_TA");
  ("TAGame.SpecialPickup_Swapper_TA", "TAGame.SpecialPickup_Targeted_TA");
  ("TAGame.SpecialPickup_TA", "TAGame.CarComponent_TA");
  ("TAGame.SpecialPickup_Targeted_TA", "TAGame.SpecialPickup_TA");
  ("TAGame.SpecialPickup_Tornado_TA", "TAGame.SpecialPickup_TA");
  ("TAGame.Stunlock_TA", "Engine.Actor");
  ("TAGame.Team_Freeplay_TA", "TAGame.Team_Soccar_TA");
  ("TAGame.Team_Soccar_TA", "TAGame.Team_TA");
  ("TAGame.Team_TA", "Engine.TeamInfo");
  ("TAGame.TrackerWallDynamicMeshActor_TA", "TAGame.DynamicMeshActor_TA");
  ("TAGame.TrainingEditorData_TA", "Core.Object");
  ("TAGame.Vehicle_TA", "TAGame.RBActor_TA");
  ("TAGame.VehiclePickup_Boost_TA", "TAGame.VehiclePickup_TA");
  ("TAGame.VehiclePickup_TA", "Engine.ReplicationInfo");
  ("TAGame.ViralItemActor_TA", "Engine.Actor");
  ("TheWorld:PersistentLevel.BreakOutActor_Platform_TA", "TAGame.BreakOutActor_Platform_TA");
  ("TheWorld:PersistentLevel.CrowdActor_TA", "TAGame.CrowdActor_TA");
  ("TheWorld:PersistentLevel.CrowdManager_TA", "TAGame.CrowdManager_TA");
  ("TheWorld:PersistentLevel.InMapScoreboard_TA", "TAGame.InMapScoreboard_TA");
  ("TheWorld:PersistentLevel.PlayerStart_Platform_TA", "TAGame.PlayerStart_Platform_TA");
  ("TheWorld:PersistentLevel.VehiclePickup_Boost_TA", "TAGame.VehiclePickup_Boost_TA")
].

(** The tables with their literals as UTF-8 byte strings: data.rs:3,
    data.rs:21 and data.rs:324. *)
Definition SPAWN_STATS : list (str * spawn_trajectory) :=
  map (fun kv => (lit (fst kv), snd kv)) SPAWN_STATS_src.
(** data.rs:21 *)
Definition ATTRIBUTES : list (str * attribute_tag) :=
  map (fun kv => (lit (fst kv), snd kv)) ATTRIBUTES_src.
(** data.rs:324 *)
Definition PARENT_CLASSES : list (str * str) :=
  map (fun kv => (lit (fst kv), lit (snd kv))) PARENT_CLASSES_src.
