-Q theories Verif
theories/Base.v
theories/Codec.v
theories/CodecLaws.v
theories/Types.v
theories/TypesLaws.v
theories/Runtime.v
theories/Spl.v
theories/Helper.v
theories/RoundLoader.v
theories/Text.v
theories/TokenProxy.v
theories/NativeProxy.v
theories/CodecFacts.v
theories/RuntimeLaws.v
theories/HelperLaws.v
theories/SplLaws.v
theories/RlLaws.v
theories/TpValid.v
theories/TpAdmin.v
theories/TpPay.v
theories/TpMisc.v
theories/TpDeposit.v
theories/TpRequest.v
theories/TpPending.v
theories/RlEffects.v
theories/World.v
theories/RlWorld.v
theories/RlOrigin.v
theories/TpOk.v
theories/TpEffects.v
theories/TpSpec.v
theories/Frames.v
theories/TpWorld.v
theories/Touch.v
theories/TpReq.v
theories/Nested.v
theories/Vacant.v
theories/Filed.v
theories/Life.v
theories/Selfless.v
theories/TpFlow.v
theories/Demo.v
theories/DemoLaws.v
theories/TpDemo.v
theories/TpDemoLaws.v
theories/PropCodec.v
theories/PropBasics.v
theories/PropRoundLoader.v
theories/PropTpAdmin.v
theories/Progress.v
theories/SplGo.v
theories/SysGo.v
theories/PropLive.v
theories/PropTpReq.v
theories/PropVotes.v
theories/PropTpFlow.v
theories/PropTpPay.v
theories/PropTpMoney.v
theories/PropTpMisc.v
theories/PropNested.v
theories/PropLife.v
theories/PropPaid.v
theories/PropFrames.v
theories/PropTpHist.v
theories/PropKinds.v
theories/Bindings.v
theories/PropBindings.v
theories/BindLaws.v
theories/Script.v
theories/Wasm.v
theories/PropScript.v
theories/PropClient.v
theories/PropWasm.v
theories/PropTpDaily.v
theories/PropTpOutcome.v
theories/PropExec.v
theories/PropRounds.v
theories/PropExits.v
theories/PropFees.v
theories/PropDeposits.v
theories/PropSysvars.v
theories/Dust.v
theories/PropDust.v
theories/AtaGo.v
theories/PropFirst.v
theories/PropRequest.v
theories/PropFill.v
theories/PropLedger.v
theories/PropBridge.v
theories/PropHandover.v
theories/PropApproval.v
theories/PropStuck.v
theories/PropWrap.v
theories/PropPayload.v
theories/PropSigners.v
theories/PropErrors.v
theories/PropRelease.v
theories/PropOrder.v
theories/PropOrderRl.v
theories/Local.v
theories/PropLocal.v
theories/Timeless.v
theories/PropTime.v
theories/Grow.v
theories/PropGrow.v
theories/Extra.v
theories/PropExtra.v
