-Q theories Verif
theories/Base.v
theories/ModelBits.v
theories/ModelFloat.v
theories/ModelBinary.v
theories/ModelJson.v
theories/ModelReader.v
theories/ModelTable.v
theories/ModelManager.v
theories/ModelTemplate.v
theories/ModelAst.v
theories/ModelParser.v
theories/ModelUnpack.v
theories/ModelPayload.v
theories/ModelFactory.v
theories/ModelMarshal.v
theories/ModelScript.v
theories/SpecBits.v
theories/ProofsBits.v
theories/ProofsBitProps.v
theories/ProofsBinary.v
theories/PropsBits.v
theories/SpecJson.v
theories/ProofsJson.v
theories/PropsJson.v
theories/ProofsFloat.v
theories/SpecTable.v
theories/ProofsTable.v
theories/ProofsTable2.v
theories/SpecManager.v
theories/ProofsManager.v
theories/PropsTable.v
theories/ProofsBase.v
theories/SpecTemplate.v
theories/ProofsTemplate.v
theories/Demo.v
theories/PropsTemplate.v
theories/SpecParser.v
theories/ProofsParser.v
theories/ProofsParser2.v
theories/ProofsParser3.v
theories/ProofsParser4.v
theories/ProofsParser5.v
theories/PropsParser.v
theories/SpecUnpack.v
theories/ProofsUnpack.v
theories/SpecReal.v
theories/ProofsReal.v
theories/ProofsReal2.v
theories/PropsUnpack.v
theories/SpecRun.v
theories/ProofsRun.v
theories/ProofsRun2.v
theories/ProofsRun3.v
theories/ProofsRun4.v
theories/ProofsRun5.v
theories/ProofsRun6.v
theories/ProofsRun7.v
theories/ProofsRun8.v
theories/ProofsRun9.v
theories/ProofsRun10.v
theories/ProofsRun11.v
theories/ProofsRun12.v
theories/PropsRun.v
theories/SpecMessage.v
theories/ProofsMsg1.v
theories/ProofsMsg2.v
theories/ProofsMsg3.v
theories/ProofsMsg4.v
theories/ProofsMsg5.v
theories/ProofsMsg6.v
theories/ProofsMsg7.v
theories/ProofsMsg8.v
theories/ProofsMsg9.v
theories/PropsMessage.v
theories/SpecCell.v
theories/ProofsCell.v
theories/PropsCell.v
theories/SpecAst.v
theories/ProofsAst.v
theories/PropsAst.v
theories/SpecCompat.v
theories/ProofsCompat.v
theories/ProofsCompat2.v
theories/ProofsCompat3.v
theories/PropsCompat.v
theories/SpecSafe.v
theories/ProofsSafe.v
theories/ProofsSafe2.v
theories/PropsSafe.v
theories/ProofsCrash.v
theories/PropsCrash.v
theories/SpecPack.v
theories/ProofsPack.v
theories/ProofsPack2.v
theories/ProofsPack3.v
theories/PropsPack.v
theories/SpecMarshal.v
theories/ProofsMarshal.v
theories/ProofsMarshal2.v
theories/ProofsMarshal3.v
theories/ProofsBase64.v
theories/PropsMarshal.v
theories/SpecTree.v
theories/ProofsTree.v
theories/ProofsTree2.v
theories/PropsTree.v
theories/SpecPlan.v
theories/ProofsPlan.v
theories/ProofsPlan2.v
theories/ProofsPlan3.v
theories/PropsPlan.v
theories/ProofsLane.v
theories/PropsLane.v
theories/SpecWhole.v
theories/ProofsWhole.v
theories/PropsWhole.v
theories/SpecOnly.v
theories/PropsOnly.v
theories/ModelNames.v
theories/SpecNames.v
theories/ProofsNames.v
theories/PropsNames.v
theories/ModelText.v
theories/SpecText.v
theories/PropsText.v
theories/ModelShipped.v
theories/SpecShipped.v
theories/ProofsShipped.v
theories/ProofsShipped2.v
theories/ProofsShipped3.v
theories/ProofsShipped4.v
theories/ProofsShipped5.v
theories/ProofsShipped6.v
theories/PropsShipped.v
theories/SpecDelayed.v
theories/ProofsDelayed.v
theories/PropsDelayed.v
theories/SpecRobust.v
theories/ProofsRobust.v
theories/ProofsRobust2.v
theories/ProofsRobust3.v
theories/PropsRobust.v
theories/PropsMessageJson.v
theories/SpecReader.v
theories/ProofsReader.v
theories/PropsReader.v
theories/SpecColumns.v
theories/ProofsPlan4.v
theories/PropsColumns.v
theories/ModelSink.v
theories/SpecSink.v
theories/ProofsSink.v
theories/ProofsSink2.v
theories/PropsSink.v
theories/ModelLua.v
theories/ProofsLua.v
theories/PropsLua.v
theories/ModelWalkers.v
theories/SpecWalkers.v
theories/ProofsWalkers.v
theories/ProofsWalkers2.v
theories/PropsWalkers.v
theories/ModelRuntime.v
theories/PropsRuntime.v
theories/ModelObjects.v
theories/SpecObjects.v
theories/ProofsObjects.v
theories/ProofsObjects2.v
theories/PropsObjects.v
theories/ModelLuaText.v
theories/GenScripts.v
theories/ModelInterp.v
theories/SpecInterp.v
theories/ProofsInterp.v
theories/ProofsInterp2.v
theories/PropsInterp.v
theories/ModelProcess.v
theories/SpecProcess.v
theories/ProofsProcess.v
theories/PropsProcess.v
theories/ModelBufio.v
theories/SpecBufio.v
theories/ProofsBufio.v
theories/ProofsBufio2.v
theories/PropsBufio.v
theories/ProofsFinite.v
theories/PropsFinite.v
theories/SpecHierarchy.v
theories/ProofsHierarchy.v
theories/PropsHierarchy.v
