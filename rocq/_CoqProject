-Q theories Verif
theories/AlignProofs.v
theories/BasicProofs.v
theories/Blit.v
theories/BlitSteps.v
theories/CgFont.v
theories/CgGenerate.v
theories/CgIndex.v
theories/CgMore.v
theories/ClearProofs.v
theories/Codegen.v
theories/CodegenText.v
theories/CompiledBase.v
theories/CompiledChar.v
theories/CompiledClear.v
theories/CompiledFile.v
theories/CompiledFind.v
theories/CompiledFirst.v
theories/CompiledHash.v
theories/CompiledInit.v
theories/CompiledNext.v
theories/CompiledPaint.v
theories/CompiledRows.v
theories/CompiledStr.v
theories/CompiledTables.v
theories/CompiledXor.v
theories/Config.v
theories/Conformance.v
theories/CropProofs.v
theories/Demo.v
theories/DemoCode.v
theories/DemoFile.v
theories/DemoProofs.v
theories/Editor.v
theories/EditorCheck.v
theories/EditorJson.v
theories/EditorProofs.v
theories/EditorTables.v
theories/FbFacts.v
theories/Files.v
theories/FontBold.v
theories/FontCheck.v
theories/FontDefs.v
theories/FontEmoji.v
theories/FontEmojiData0.v
theories/FontEmojiData1.v
theories/FontHanzi.v
theories/FontHanziData0.v
theories/FontHanziData1.v
theories/FontHanziData2.v
theories/FontHanziData3.v
theories/FontRegular.v
theories/FontSmall.v
theories/FontText.v
theories/Fonts.v
theories/FontsOk.v
theories/Geom.v
theories/GridProofs.v
theories/HashBits.v
theories/HashProofs.v
theories/HexProofs.v
theories/HuffProofs.v
theories/IndexCheck.v
theories/IndexEmoji.v
theories/IndexHanzi.v
theories/IndexLatin.v
theories/IndexProofs.v
theories/IndexText.v
theories/InflateProofs.v
theories/LabelFiles.v
theories/LabelProofs.v
theories/LatinText.v
theories/LayoutProofs.v
theories/LinesProofs.v
theories/LookupMore.v
theories/LookupProofs.v
theories/LowerProofs.v
theories/M3Hash.v
theories/MainProofs.v
theories/MixedText.v
theories/MoveProofs.v
theories/NarrowProofs.v
theories/PackProofs.v
theories/Page.v
theories/PaintProofs.v
theories/PaintRow.v
theories/PairProofs.v
theories/PictureProofs.v
theories/Png.v
theories/PngCheck.v
theories/PngCrc.v
theories/PngExists.v
theories/PngFiles.v
theories/PngPixels.v
theories/PngProofs.v
theories/PngRun.v
theories/PngSheets.v
theories/Prim.v
theories/PrimFacts.v
theories/PropsAlign.v
theories/PropsBasic.v
theories/PropsClear.v
theories/PropsCodegen.v
theories/PropsCompiled.v
theories/PropsCompiledChar.v
theories/PropsCompiledFind.v
theories/PropsCompiledInit.v
theories/PropsCompiledStr.v
theories/PropsCrop.v
theories/PropsDemo.v
theories/PropsEditor.v
theories/PropsFonts.v
theories/PropsGrid.v
theories/PropsHash.v
theories/PropsIndex.v
theories/PropsLabel.v
theories/PropsLines.v
theories/PropsLower.v
theories/PropsMove.v
theories/PropsNarrow.v
theories/PropsPage.v
theories/PropsPaint.v
theories/PropsPng.v
theories/PropsReach.v
theories/PropsReadme.v
theories/PropsRedraw.v
theories/PropsRender.v
theories/PropsRoom.v
theories/PropsServer.v
theories/PropsSetting.v
theories/PropsSheets.v
theories/PropsShots.v
theories/PropsSteps.v
theories/PropsTemplate.v
theories/PropsText.v
theories/ReachProofs.v
theories/ReadmeProofs.v
theories/RedrawProofs.v
theories/Render.v
theories/RenderFiles.v
theories/RenderLex.v
theories/RenderParse.v
theories/RenderRead.v
theories/RoomProofs.v
theories/Screenshots.v
theories/Server.v
theories/SettingProofs.v
theories/SheetBold.v
theories/SheetCells.v
theories/SheetCheck.v
theories/SheetEmoji.v
theories/SheetFonts.v
theories/SheetHanzi.v
theories/SheetIndex.v
theories/SheetRegular.v
theories/SheetSmall.v
theories/Sheets.v
theories/ShotCheck.v
theories/ShotProofs.v
theories/SortProofs.v
theories/Spec.v
theories/SpecCodegen.v
theories/SpecCompiled.v
theories/SpecCompiledPage.v
theories/SpecCompiledPaint.v
theories/SpecCrc.v
theories/SpecCrop.v
theories/SpecDeflate.v
theories/SpecDemo.v
theories/SpecEditor.v
theories/SpecGrid.v
theories/SpecIndex.v
theories/SpecLabel.v
theories/SpecLines.v
theories/SpecMove.v
theories/SpecNarrow.v
theories/SpecPaint.v
theories/SpecPictures.v
theories/SpecPixel.v
theories/SpecPng.v
theories/SpecReach.v
theories/SpecReadme.v
theories/SpecRedraw.v
theories/SpecRoom.v
theories/SpecRust.v
theories/SpecSetting.v
theories/SpecSheet.v
theories/SpecShot.v
theories/SpecSteps.v
theories/SpecTemplate.v
theories/SpecText.v
theories/SpecValid.v
theories/SpecWasm.v
theories/StepsClear.v
theories/StepsPaint.v
theories/StepsProofs.v
theories/Str.v
theories/Template.v
theories/TemplateLaws.v
theories/TemplateProofs.v
theories/TemplateTexts.v
theories/TextBold.v
theories/TextInputs.v
theories/TextProofs.v
theories/TextRegular.v
theories/TextSmall.v
theories/TrimProofs.v
theories/ValidProofs.v
theories/ValidSound.v
theories/Wasm.v
theories/WasmProofs.v
theories/Webasm.v
theories/WebasmBin.v
theories/WebasmLogic.v
theories/WebasmRun.v
theories/XorProofs.v
