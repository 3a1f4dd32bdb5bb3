-Q theories Verif
theories/Base.v
theories/BaseFacts.v
theories/Delegation.v
theories/F1Spec.v
theories/F1Refine.v
theories/F1Acct.v
theories/DelegationInv.v
theories/DelegationBank.v
theories/DelegationQueue.v
theories/DelegationProps.v
theories/DelegationRewards.v
theories/DelegationClaims.v
theories/DelegationClaims2.v
theories/DelegationClaims3.v
theories/DelegationExamples.v
theories/DelegationShare.v
theories/Properties_Delegation.v
theories/Funders.v
theories/FundersInv.v
theories/FundersRun.v
theories/FundersClaims.v
theories/FundersExamples.v
theories/FundersFull.v
theories/Properties_Funders.v
theories/Team.v
theories/TeamInv.v
theories/TeamRun.v
theories/TeamClaims.v
theories/TeamExamples.v
theories/Properties_Team.v
theories/Stakers.v
theories/StakersInv.v
theories/StakersRun.v
theories/StakersClaims.v
theories/StakersClaims2.v
theories/StakersFlag.v
theories/StakersExamples.v
theories/Properties_Stakers.v
theories/RoundRobin.v
theories/RoundRobinClaims.v
theories/RoundRobinNew.v
theories/Properties_RoundRobin.v
theories/Pool.v
theories/Bundles.v
theories/Chain.v
theories/PayoutClaims.v
theories/ChainFrame.v
theories/ArchiveInv.v
theories/BankMoves.v
theories/ModTime.v
theories/ChainLift.v
theories/PoolFrame.v
theories/PoolInv.v
theories/PoolClaims.v
theories/TallyFacts.v
theories/VoteClaims.v
theories/StepCases.v
theories/PaySafe.v
theories/PointsInv.v
theories/TallyClaims.v
theories/TallyEffects.v
theories/TallyProps.v
theories/ArchiveClaims.v
theories/ChainExamples.v
theories/Properties_Bundles.v
theories/PoolExamples.v
theories/Properties_Pool.v
theories/VoteExamples.v
theories/Properties_Votes.v
theories/SplitClaims.v
theories/SplitExamples.v
theories/Properties_Split.v
theories/MoneyFlow.v
theories/MoneyExamples.v
theories/Properties_Money.v
theories/Walk.v
theories/PayFlow.v
theories/PayExamples.v
theories/Properties_Pay.v
theories/Global.v
theories/GlobalClaims.v
theories/GlobalExamples.v
theories/Properties_Global.v
theories/Keys.v
theories/KeysClaims.v
theories/KeysExamples.v
theories/Properties_Keys.v
theories/Query.v
theories/QueryFacts.v
theories/IndexInv.v
theories/QueryClaims.v
theories/QueryExamples.v
theories/Properties_Query.v
theories/SlashCount.v
theories/Gov.v
theories/GovClaims.v
theories/GovExamples.v
theories/Properties_Gov.v
theories/Params.v
theories/ParamsFrame.v
theories/ParamsClaims.v
theories/ParamsExamples.v
theories/Properties_Params.v
theories/Genesis.v
theories/GenesisInv.v
theories/GenesisFacts.v
theories/GenesisDelegation.v
theories/GenesisStakers.v
theories/GenesisClaims.v
theories/GenesisExamples.v
theories/Properties_Genesis.v
theories/Account.v
theories/AccountClaims.v
theories/CoolFrame.v
theories/AccountSlots.v
theories/TallyTotal.v
theories/AskClaims.v
theories/AccountLists.v
theories/AccountExamples.v
theories/Properties_Account.v
theories/HaltClaims.v
theories/HaltExamples.v
theories/Properties_Halt.v
theories/Fundings.v
theories/FundingsFrame.v
theories/FundingsClaims.v
theories/FundingsExamples.v
theories/Properties_Fundings.v
theories/Listings.v
theories/ListingsClaims.v
theories/ListingsExamples.v
theories/Properties_Listings.v
theories/Migrate.v
theories/MigrateClaims.v
theories/MigrateExamples.v
theories/Properties_Migrate.v
theories/RoleClaims.v
theories/RoleExamples.v
theories/Properties_Role.v
theories/TeamQuery.v
theories/TeamQueryClaims.v
theories/TeamQueryExamples.v
theories/Properties_TeamQuery.v
theories/Wire.v
theories/WireFrame.v
theories/WireClaims.v
theories/WireExamples.v
theories/Properties_Wire.v
theories/EffectClaims.v
theories/EffectExamples.v
theories/Properties_Effect.v
theories/Events.v
theories/EventWalk.v
theories/EventFollow.v
theories/EventStakers.v
theories/EventTally.v
theories/EventCommission.v
theories/EventStake.v
theories/EventBundles.v
theories/EventAdmin.v
theories/EventFunds.v
theories/EventMoney.v
theories/EventExamples.v
theories/Properties_Event.v
theories/Properties_Books.v
theories/EventQueue.v
theories/EventMeaning.v
theories/EventVotes.v
theories/EventFacts.v
theories/EventContents.v
theories/MeaningExamples.v
theories/Properties_Meaning.v
theories/ChainWide.v
theories/WideExamples.v
theories/Properties_Chain.v
theories/DelegationCushion.v
theories/CushionExamples.v
theories/Properties_Reserve.v
theories/Gifts.v
theories/GiftsClaims.v
theories/GiftsExamples.v
theories/Properties_Gifts.v
theories/LiveClaims.v
theories/LiveExamples.v
theories/Properties_Live.v
theories/EscapeClaims.v
theories/EscapeExamples.v
theories/Properties_Escape.v
theories/RunsClaims.v
theories/RunsExamples.v
theories/Properties_Runs.v
theories/TeamShare.v
theories/TeamShareExamples.v
theories/Properties_Share.v
theories/SwingClaims.v
theories/SwingExamples.v
theories/Properties_Swing.v
theories/FreshClaims.v
theories/FreshExamples.v
theories/Properties_Fresh.v
theories/StopClaims.v
theories/StopExamples.v
theories/Properties_Stop.v
theories/NoticeClaims.v
theories/NoticeFrame.v
theories/NoticeLeave.v
theories/NoticeExamples.v
theories/Properties_Notice.v
theories/CrewClaims.v
theories/CrewExamples.v
theories/Properties_Crew.v
