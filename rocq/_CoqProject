-Q theories Verif

theories/Pkcs11.v
theories/Base.v
theories/Attr.v
theories/Obj.v
theories/Factory.v
theories/Tables.v
theories/TableFacts.v
theories/Create.v
theories/Monad.v
theories/Sqlite.v
theories/Storage.v
theories/Token.v
theories/Backend.v
theories/State.v
theories/Api.v
theories/Toy.v
theories/ObjSpec.v
theories/Rows.v
theories/ObjOk.v
theories/ObjNew.v
theories/Hoare.v
theories/Triple.v
theories/TokInv.v
theories/TokStep.v
theories/TokenFrame.v
theories/Loose.v
theories/TokWp.v
theories/TokAuth.v
theories/Spec.v
theories/WorldFrame.v
theories/WorldWp.v
theories/Sessions.v
theories/SessionInv.v
theories/ObjWorld.v
theories/SessionFacts.v
theories/ObjView.v
theories/ObjAttrs.v
theories/NewView.v
theories/SessionStates.v
theories/Lifecycle.v
theories/ObjFacts.v
theories/AttrFacts.v
theories/Errors.v
theories/Users.v
theories/AuthSpec.v
theories/ObjCalls.v
theories/ToyFacts.v
theories/ThmSessions.v
theories/ThmNull.v
theories/ThmObjects.v
theories/SetFacts.v
theories/ThmAttrs.v
theories/PlainSpec.v
theories/PlainFacts.v
theories/ThmQuery.v
theories/Protect.v
theories/ThmProtect.v
theories/Origin.v
theories/ThmOrigin.v
theories/AuthFacts.v
theories/AuthInv.v
theories/AuthPins.v
theories/AuthTry.v
theories/ThmAuth.v
theories/InitFacts.v
theories/ThmInit.v
theories/ReadOnly.v
theories/ThmReadOnly.v
theories/SearchSpec.v
theories/SearchFacts.v
theories/ThmSearch.v
theories/PrivateSpec.v
theories/ThmPrivate.v
theories/OpsApart.v
theories/OpsSpec.v
theories/ThmOps.v
theories/ThmAlways.v
theories/MechSpec.v
theories/ThmMech.v
theories/ThmWrap.v
theories/StoreSpec.v
theories/ThmStore.v
theories/StateSpec.v
theories/ThmState.v
theories/Config.v
theories/ThmConfig.v
theories/Locks.v
theories/ThmLocks.v
theories/Aes.v
theories/AesFacts.v
theories/ChunkSpec.v
theories/ChunkFacts.v
theories/ThmChunks.v
theories/Mac.v
theories/ThmMac.v
theories/BufSpec.v
theories/ThmBuffers.v
theories/ThmAesBuf.v
theories/Kdf.v
theories/KdfSpec.v
theories/KdfFacts.v
theories/ThmKdf.v
theories/ThmKdf2.v
theories/Hotp.v
theories/ThmHotp.v
theories/KeyFacts.v
theories/ThmKeys.v
theories/SealSpec.v
theories/SealFacts.v
theories/ThmSeal.v
theories/Rollback.v
theories/AtomicSpec.v
theories/ThmAtomic.v
theories/NewSpec.v
theories/ThmNew.v
theories/Msg.v
theories/MsgFacts.v
theories/MsgSpec.v
theories/ThmMsg.v
theories/ThmAead.v
theories/ThmAead2.v
theories/NssTable.v
theories/Nss.v
theories/NssSpec.v
theories/ToyNss.v
theories/ThmNssPin.v
theories/NssFacts.v
theories/ThmNssObj.v
theories/ThmNssSeal.v
theories/Der.v
theories/DerSpec.v
theories/DerFacts.v
theories/ThmDer.v
theories/Sig.v
theories/SigSpec.v
theories/ThmSig.v
theories/Asym.v
theories/AsymSpec.v
theories/ThmAsym.v
theories/ThmDerived.v
theories/Agree.v
theories/AgreeSpec.v
theories/ThmAgree.v
theories/ThmSigMore.v
theories/Hkdf.v
theories/HkdfSpec.v
theories/ThmHkdf.v
theories/ThmAtomic2.v
theories/ThmAgreeMore.v
theories/WrapSpec.v
theories/ThmWrapBack.v
theories/ThmChunks2.v
theories/KeptSpec.v
theories/ThmKept.v
theories/ThmMaterial.v
theories/ThmComputed.v
theories/ThmDestroy.v
theories/ThmDestroyAll.v
theories/ThmAnswered.v
theories/ThmGone.v
theories/Assumptions.v
