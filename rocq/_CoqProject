-Q theories Verif
theories/Types.v
theories/Book.v
theories/Engine.v
theories/Manager.v
theories/Factory.v
theories/Scenarios.v
theories/Spec.v
theories/Validate.v
theories/LevelFacts.v
theories/BookInv.v
theories/EngInv.v
theories/EngPrim.v
theories/Steps.v
theories/StepsOk.v
theories/Refine1.v
theories/Refine2.v
theories/Refine3.v
theories/Refine4.v
theories/Trail.v
theories/Trail2.v
theories/Api.v
theories/StateInv.v
theories/Micro.v
theories/Reach.v
theories/Calls.v
theories/Trades.v
theories/Witness.v
theories/PropsState.v
theories/Settle.v
theories/Spec2.v
theories/PropsSettle.v
theories/CallFacts.v
theories/PropsBasic.v
theories/PropsTrades.v
theories/PropsOrders.v
theories/PropsFok.v
theories/PropsFill.v
theories/Itch.v
theories/ItchSpec.v
theories/PropsItch.v
theories/Hash.v
theories/PropsHash.v
theories/Avl.v
theories/Spec3.v
theories/PropsMirror.v
theories/PropsMirror2.v
theories/Split.v
theories/Spec4.v
theories/PropsStops.v
theories/PropsPriority.v
theories/Spec5.v
theories/PropsDirect.v
theories/PropsReject.v
theories/Spec6.v
theories/PropsTrail.v
theories/PropsMarket.v
theories/Spec7.v
theories/RefMatch.v
theories/PropsRef.v
theories/Spec8.v
theories/RefExchange.v
theories/PropsExchange.v
theories/Spec9.v
theories/PropsFills.v
theories/Feed.v
theories/Fast.v
theories/FastOk.v
theories/PropsFast.v
theories/Fast2.v
theories/PropsFast2.v
theories/FastOk2.v
theories/Spec27.v
theories/PropsFast3.v
theories/Spec10.v
theories/PropsFeed.v
theories/Drive.v
theories/Spec11.v
theories/PropsItchFeed.v
theories/Spec12.v
theories/Follow.v
theories/PropsFollow.v
theories/Spec13.v
theories/RefStops.v
theories/RefHall.v
theories/HallCalls.v
theories/PropsHall.v
theories/Spec14.v
theories/RefRing.v
theories/RefFollow.v
theories/RefRounds.v
theories/RingCalls.v
theories/PropsRing.v
theories/Console.v
theories/Spec15.v
theories/ConsoleOk.v
theories/PropsConsole.v
theories/Spec16.v
theories/PropsFok2.v
theories/Spec17.v
theories/PropsGuard.v
theories/Spec18.v
theories/PropsBlocked.v
theories/Print.v
theories/Spec19.v
theories/PropsPrint.v
theories/Spec20.v
theories/PropsAtOnce.v
theories/Tally.v
theories/Spec21.v
theories/PropsTally.v
theories/ItchPrint.v
theories/Spec22.v
theories/PropsItchPrint.v
theories/Spec23.v
theories/PropsOpen.v
theories/Example.v
theories/Spec24.v
theories/PropsExample.v
theories/Bench.v
theories/Spec25.v
theories/PropsBench.v
theories/Throughput.v
theories/Spec26.v
theories/PropsEngine.v
