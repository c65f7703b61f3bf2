-Q theories Verif
theories/GoBase.v
theories/Lang.v
theories/BodyModel.v
theories/RunFacts.v
theories/Spec.v
theories/StreamSpec.v
theories/SourceSpec.v
theories/CopySpec.v
theories/SeekSpec.v
theories/Frame.v
theories/Mem.v
theories/Wf.v
theories/WfUpd.v
theories/ReaderAt.v
theories/Seeker.v
theories/Buffered.v
theories/Preserve.v
theories/Effect.v
theories/Own.v
theories/ProofsOwn.v
theories/Family.v
theories/Stream.v
theories/ProofsStream.v
theories/Source.v
theories/Any.v
theories/Fuel.v
theories/Order.v
theories/Sticky.v
theories/Witness.v
theories/WitnessSource.v
theories/Limits.v
theories/Copies.v
theories/RemainSpec.v
theories/Remaining.v
theories/SeekProofs.v
theories/Proofs01.v
theories/C01.v
theories/C05.v
theories/C06.v
theories/C07.v
theories/C10.v
theories/C11.v
theories/C12.v
theories/C16.v
theories/C17.v
theories/C18.v
theories/C19.v
theories/C20.v
theories/C21.v
theories/C46.v
theories/C47.v
theories/C48.v
theories/C02.v
theories/C03.v
theories/C04.v
theories/C08.v
theories/C09.v
theories/C13.v
theories/C14.v
theories/C15.v
theories/Text.v
theories/PanicModel.v
theories/RespModel.v
theories/Hazard.v
theories/RespSpec.v
theories/RespFacts.v
theories/WriterProofs.v
theories/WitnessResp.v
theories/WriterMain.v
theories/C28.v
theories/C29.v
theories/C30.v
theories/C31.v
theories/C32.v
theories/JsonSpec.v
theories/JsonProofs.v
theories/C22.v
theories/C23.v
theories/BuilderSpec.v
theories/HdrFacts.v
theories/CodeProofs.v
theories/ViewFacts.v
theories/TextFacts.v
theories/BuilderMain.v
theories/C33.v
theories/C34.v
theories/C38.v
theories/C39.v
theories/C49.v
theories/RegionProofs.v
theories/TidyProofs.v
theories/OwnMain.v
theories/C35.v
theories/C36.v
theories/ServeSpec.v
theories/ServeProofs.v
theories/ServeMain.v
theories/C25.v
theories/C26.v
theories/IsSpec.v
theories/IsMain.v
theories/C27.v
theories/Post.v
theories/DeliverSpec.v
theories/HeapRun.v
theories/Quiet.v
theories/Deliver.v
theories/Twins.v
theories/DeliverFam.v
theories/DeliverMain.v
theories/WitnessServe.v
theories/C24.v
theories/CopyMain.v
theories/C37.v
theories/AdaptorSpec.v
theories/Metrics.v
theories/AdaptorMain.v
theories/AdaptorWitness.v
theories/C40.v
theories/C41.v
theories/Conc.v
theories/ConcSpec.v
theories/Typed.v
theories/ConcInv.v
theories/ConcFresh.v
theories/ConcMain.v
theories/ConcWitness.v
theories/Lin.v
theories/LinMain.v
theories/C42.v
theories/SoloSpec.v
theories/Solo.v
theories/C43.v
theories/C44.v
theories/C45.v
theories/C51.v
theories/MockModel.v
theories/MockSpec.v
theories/MockProofs.v
theories/C50.v
theories/C52.v
theories/ReplySpec.v
theories/Reply.v
theories/ReplyWitness.v
theories/C53.v
theories/PanicSpec.v
theories/Panics.v
theories/PanicProofs.v
theories/PanicWitness.v
theories/C54.v
theories/NestModel.v
theories/NestSpec.v
theories/NestProofs.v
theories/NestMain.v
theories/NestStream.v
theories/NestWitness.v
theories/C55.v
theories/C56.v
theories/ShortSpec.v
theories/Short.v
theories/ShortNest.v
theories/ShortWitness.v
theories/C57.v
theories/LengthSpec.v
theories/LengthMain.v
theories/LengthWitness.v
theories/C58.v
theories/SafeSpec.v
theories/Safe.v
theories/SafeFault.v
theories/SafeWitness.v
theories/C59.v
theories/HonestSpec.v
theories/Honest.v
theories/Count.v
theories/HonestWitness.v
theories/C60.v
theories/C61.v
theories/TemplateSpec.v
theories/Template.v
theories/TemplateWitness.v
theories/C62.v
theories/ValueSpec.v
theories/PlainProofs.v
theories/ValueMain.v
theories/ClientSpec.v
theories/ValueWitness.v
theories/C63.v
theories/ClientMain.v
theories/C64.v
theories/CloseSpec.v
theories/CloseMain.v
theories/CloseWitness.v
theories/C65.v
theories/BooksSpec.v
theories/BooksMain.v
theories/BooksWitness.v
theories/C66.v
theories/TalkSpec.v
theories/TalkMain.v
theories/C67.v
theories/DrainSpec.v
theories/DrainMain.v
theories/C68.v
