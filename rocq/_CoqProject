-Q theories Verif
theories/Types.v
theories/MLib.v
theories/MConnect.v
theories/MConnAck.v
theories/MPublish.v
theories/MPubAck.v
theories/MPubRec.v
theories/MPubRel.v
theories/MPubComp.v
theories/MSubscribe.v
theories/MSubAck.v
theories/MUnsubscribe.v
theories/MUnsubAck.v
theories/MDisconnect.v
theories/MPing.v
theories/Model.v
theories/MUsize.v
theories/MDebug.v
theories/Spec.v
theories/Samples.v
theories/Wire.v
theories/PBase.v
theories/PVarint.v
theories/PUtf8.v
theories/PRead.v
theories/PItems.v
theories/PProps.v
theories/PFrame.v
theories/PWire.v
theories/PWrite.v
theories/PUsize.v
theories/PDebug.v
theories/PTotal.v
theories/TFraming.v
theories/TWrite.v
theories/PRound.v
theories/Driver.v
theories/TRound.v
theories/TDriver.v
theories/Content.v
theories/PBack.v
theories/Sites.v
theories/PFeat.v
theories/PSites.v
theories/Faults.v
theories/PFaults.v
theories/TBack.v
theories/TFaults.v
theories/TProps.v
theories/TFields.v
theories/TPackets.v
theories/TRules.v
theories/TParts.v
theories/TStream.v
theories/Standard.v
theories/TStandard.v
theories/TReaders.v
theories/TUsize.v
theories/TDebug.v
theories/TRelay.v
theories/MDisplay.v
theories/TDisplay.v
theories/MLeft.v
theories/Left.v
theories/PLeft.v
theories/TLeft.v
theories/TPeer.v
theories/TAlike.v
theories/MCost.v
theories/PCost.v
theories/TCost.v
theories/MCostW.v
theories/PCostW.v
theories/TCostW.v
theories/Link.v
theories/TLink.v
theories/MTopics.v
theories/Topics.v
theories/TTopics.v
theories/MDefault.v
theories/TDefault.v
theories/Tests.v
theories/Cases.v
theories/Cases2.v
theories/Cases3.v
theories/Cases4.v
theories/MEq.v
theories/PEq.v
theories/TEq.v
theories/TDamage.v
theories/TBuilds.v
theories/TPatch.v
theories/Lenient.v
theories/TLenient.v
theories/TRange.v
theories/Older.v
theories/TOlder.v
theories/TOlderSent.v
theories/TSpell.v
