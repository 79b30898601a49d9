-Q theories Verif
theories/Model/Prelude.v
theories/Model/Utf8.v
theories/Model/Base64.v
theories/Model/Json.v
theories/Model/Base58.v
theories/Model/DidDoc.v
theories/Model/Crypto.v
theories/Model/Keys.v
theories/Model/Effects.v
theories/Model/Serde.v
theories/Model/Jws.v
theories/Model/Jwe.v
theories/Model/Message.v
theories/Model/FromPrior.v
theories/Model/Pack.v
theories/Model/Routing.v
theories/Model/Unpack.v
theories/Model/Bindings.v
theories/Model/DocJson.v
theories/Spec/Codec.v
theories/Spec/Small.v
theories/Spec/Events.v
theories/Spec/Panics.v
theories/Spec/Toy.v
theories/Spec/Sha2.v
theories/Spec/Aes.v
theories/Spec/Chacha.v
theories/Spec/Ciphers.v
theories/Proofs/Lib.v
theories/Proofs/Base64P.v
theories/Proofs/JsonP.v
theories/Proofs/JsonDec.v
theories/Proofs/SerdeP.v
theories/Proofs/CodecP.v
theories/Proofs/SmallP.v
theories/Proofs/Wp.v
theories/Proofs/UnpackInv.v
theories/Proofs/Base58P.v
theories/Proofs/Errs.v
theories/Proofs/NoPanic.v
theories/Proofs/UnpackP.v
theories/Proofs/RejectP.v
theories/Proofs/ApvP.v
theories/Proofs/UnpackFacts.v
theories/Proofs/GarbageP.v
theories/Props/Codec.v
theories/Props/Small.v
theories/Props/Unpack.v
theories/Spec/World.v
theories/Proofs/TreeP.v
theories/Proofs/WorldP.v
theories/Proofs/SealP.v
theories/Proofs/RoundP.v
theories/Proofs/ToyP.v
theories/Props/RoundTrip.v
theories/Spec/Text.v
theories/Spec/Sane.v
theories/Proofs/TextP.v
theories/Spec/Packing.v
theories/Proofs/PackP.v
theories/Proofs/RouteP.v
theories/Proofs/HideP.v
theories/Props/Pack.v
theories/Spec/Forward.v
theories/Spec/Conc.v
theories/Spec/Signing.v
theories/Proofs/ForwardP.v
theories/Proofs/ConcP.v
theories/Proofs/SigningP.v
theories/Props/Forward.v
theories/Props/Conc.v
theories/Props/Signing.v
theories/Spec/Names.v
theories/Spec/Tamper.v
theories/Spec/Bounds.v
theories/Proofs/NamesP.v
theories/Proofs/TamperP.v
theories/Proofs/TermP.v
theories/Props/Names.v
theories/Props/Tamper.v
theories/Props/Term.v
theories/Spec/Wire.v
theories/Spec/Accept.v
theories/Spec/Works.v
theories/Spec/Cond.v
theories/Spec/Doc.v
theories/Spec/Options.v
theories/Spec/Asked.v
theories/Spec/Blame.v
theories/Model/Ffi.v
theories/Spec/Ffi.v
theories/Spec/Sealed.v
theories/Proofs/WireP.v
theories/Proofs/ReadP.v
theories/Proofs/ReadM.v
theories/Proofs/WireU.v
theories/Props/Wire.v
theories/Props/Text.v
theories/Proofs/SaneP.v
theories/Proofs/AcceptP.v
theories/Proofs/WorksP.v
theories/Proofs/CondP.v
theories/Proofs/DocP.v
theories/Proofs/DocE.v
theories/Proofs/OptionsP.v
theories/Proofs/AskedP.v
theories/Proofs/BlameP.v
theories/Proofs/FfiP.v
theories/Props/Accept.v
theories/Props/Works.v
theories/Props/Cond.v
theories/Props/Doc.v
theories/Props/Options.v
theories/Props/Asked.v
theories/Props/Blame.v
theories/Props/Ffi.v
theories/Props/Sane.v
theories/Proofs/SealedP.v
theories/Props/Sealed.v
theories/Proofs/ChecksP.v
theories/Props/Checks.v
theories/Proofs/DeliverP.v
theories/Props/Unwrap.v
theories/Spec/Js.v
theories/Proofs/JsP.v
theories/Props/Js.v
theories/Spec/JsObj.v
theories/Proofs/JsObjP.v
theories/Props/JsObj.v
theories/Spec/Calls.v
theories/Proofs/CallsP.v
theories/Props/Calls.v
theories/Spec/Cost.v
theories/Proofs/CostP.v
theories/Props/Cost.v
theories/Spec/Deny.v
theories/Proofs/DenyP.v
theories/Props/Deny.v
theories/Spec/Cover.v
theories/Proofs/CoverP.v
theories/Props/Cover.v
theories/Spec/Leak.v
theories/Proofs/LeakP.v
theories/Props/Leak.v
theories/Spec/Insider.v
theories/Proofs/InsiderP.v
theories/Props/Insider.v
theories/Spec/Mediator.v
theories/Proofs/MediatorP.v
theories/Props/Mediator.v
theories/Spec/Devices.v
theories/Proofs/DevicesP.v
theories/Props/Devices.v
theories/Proofs/UsedP.v
theories/Props/Used.v
theories/Proofs/ExactP.v
theories/Props/Exact.v
theories/Spec/Grammar.v
theories/Spec/Spell.v
theories/Proofs/GrammarP.v
theories/Proofs/SpellP.v
theories/Proofs/SpellU.v
theories/Props/Grammar.v
theories/Spec/Cut.v
theories/Proofs/CutE.v
theories/Spec/Cause.v
theories/Proofs/CauseP.v
theories/Proofs/CauseK.v
theories/Proofs/CauseT.v
theories/Props/Cause.v
theories/Spec/Size.v
theories/Proofs/SizeP.v
theories/Proofs/SizeK.v
theories/Props/Size.v
theories/Spec/Packs.v
theories/Proofs/PacksP.v
theories/Props/Packs.v
theories/Spec/Evidence.v
theories/Proofs/EvidenceP.v
theories/Props/Evidence.v
theories/Spec/Later.v
theories/Proofs/LaterP.v
theories/Props/Later.v
theories/Spec/Outside.v
theories/Proofs/OutsideP.v
theories/Props/Outside.v
theories/Spec/Standard.v
theories/Proofs/AesP.v
theories/Proofs/CipherP.v
theories/Proofs/StdP.v
theories/Proofs/StandardP.v
theories/Props/Ciphers.v
theories/Proofs/CutP.v
theories/Proofs/CutU.v
theories/Props/Cut.v
theories/Spec/Attach.v
theories/Proofs/AttachP.v
theories/Proofs/PanicP.v
theories/Props/Attach.v
theories/Proofs/PanicE.v
theories/Props/Panics.v
theories/Tests/Curves.v
theories/Tests/Real.v
theories/Tests/Vectors.v
theories/Tests/Check.v
theories/Tests/Parse.v
theories/Tests/Verify.v
theories/Tests/Decrypt.v
theories/Tests/Unpacking.v
theories/Tests/KeyForms.v
theories/Tests/Packing.v
