-Q theories Verif
theories/Base.v
theories/BaseProofs.v
theories/Output.v
theories/OutputSpec.v
theories/OutputProofs.v
theories/Prop_Output.v
theories/Props.v
theories/PropsFlat.v
theories/PropsWrite.v
theories/PropsRead.v
theories/PropsNorm.v
theories/PropsStable.v
theories/PropsRefs.v
theories/PropsSpec.v
theories/PropsFinal.v
theories/Prop_Props.v
theories/PdfData.v
theories/PagesSpec.v
theories/PagesProofs.v
theories/PagesEdit.v
theories/PagesOps.v
theories/PagesFinal.v
theories/Prop_Pages.v
theories/Crawl.v
theories/Inject.v
theories/ContentSpec.v
theories/CrawlProofs.v
theories/Squeeze.v
theories/PiecesRead.v
theories/PiecesNest.v
theories/CrawlVisits.v
theories/PageCrawl.v
theories/InjectMaps.v
theories/InjectNames.v
theories/InjectItems.v
theories/InjectTexts.v
theories/ResTexts.v
theories/InjectSpec.v
theories/InjectMarks.v
theories/InjectVisits.v
theories/InjectPages.v
theories/InjectTidy.v
theories/InjectFonts.v
theories/InjectFinal.v
theories/InjectCheck.v
theories/InjectCases.v
theories/Prop_Inject.v
theories/ImgNames.v
theories/ImgCases.v
theories/ImgSpec.v
theories/ImgLists.v
theories/ImgCrawl.v
theories/ImgPages.v
theories/ImgEmbed.v
theories/ImgFinal.v
theories/Prop_Images.v
theories/ContentProofs.v
theories/ContentFinal.v
theories/Prop_Content.v
theories/Md5Rc4.v
theories/Crypto.v
theories/CryptoSpec.v
theories/CryptoProofs.v
theories/Prop_Crypto.v
theories/Png.v
theories/PngSpec.v
theories/PngProofs.v
theories/PdfSyntax.v
theories/PdfSyntaxProofs.v
theories/PdfMore.v
theories/PngObject.v
theories/Prop_Png.v
theories/Utf8.v
theories/Utf8Proofs.v
theories/Float64.v
theories/Ttf.v
theories/TtfSpec.v
theories/TtfProofs.v
theories/Subset.v
theories/TtfTables.v
theories/TtfCmap.v
theories/TtfTotal.v
theories/FontFile.v
theories/FontGlyphs.v
theories/FontClosure.v
theories/FontEmbed.v
theories/FontTotal.v
theories/HexProofs.v
theories/FontObjects.v
theories/CharMap.v
theories/TestFont.v
theories/FontFinal.v
theories/FontLayout.v
theories/BuffProofs.v
theories/FontCases.v
theories/Prop_Font.v
theories/Text.v
theories/TextSpec.v
theories/TextNumbers.v
theories/TextDraw.v
theories/TextBody.v
theories/TextContent.v
theories/TextFinal.v
theories/TextCases.v
theories/Wrap.v
theories/WrapProofs.v
theories/TextCases2.v
theories/Prop_Text.v
theories/Parse.v
theories/Api.v
theories/ApiSpec.v
theories/ApiProofs.v
theories/ApiIds.v
theories/ApiFresh.v
theories/ApiFrames.v
theories/ApiImages.v
theories/ApiMore.v
theories/ApiCases.v
theories/Prop_Api.v
theories/Render.v
theories/RenderProofs.v
theories/Prop_Render.v
theories/ParseFind.v
theories/ParseFile.v
theories/ParseTrailer.v
theories/ParseProofs.v
theories/ParseSpec.v
theories/ParseFinal.v
theories/ParsePages.v
theories/ParseCrash.v
theories/ParseCases.v
theories/Prop_Parse.v
theories/TextPlaceSpec.v
theories/FloatReal.v
theories/TextPlace.v
theories/TextPlace2.v
theories/ImgDraw.v
theories/TextPlaced.v
theories/PlaceCases.v
theories/Prop_Place.v
theories/FontChainSpec.v
theories/FontChain.v
theories/ChainCases.v
theories/Prop_Chain.v
theories/GoPdf.v
theories/GoPdfSpec.v
theories/GoPdfFile.v
theories/GoPdfPages.v
theories/GoPdfRun.v
theories/GoPdfDoc.v
theories/GoPdfTree.v
theories/GoPdfDrawSpec.v
theories/GoPdfDraw.v
theories/GoPdfLine.v
theories/GoPdfState.v
theories/GoPdfText.v
theories/GoPdfDocSpec.v
theories/GoPdfOut.v
theories/GoPdfMain.v
theories/GoPdfRead.v
theories/GoPdfKeep.v
theories/GoPdfView.v
theories/GoPdfSetSpec.v
theories/GoPdfFonts.v
theories/GoPdfChain.v
theories/GoPdfResSpec.v
theories/GoPdfEmbed.v
theories/GoPdfPict.v
theories/GoPdfCases.v
theories/GoPdfFaults.v
theories/Prop_GoPdf.v
theories/GoPdfSetCases.v
theories/Prop_GoPdfSet.v
theories/GoPdfResCases.v
theories/Prop_GoPdfRes.v
theories/SaveSpec.v
theories/SaveFrame.v
theories/SaveKeeps.v
theories/SaveFonts.v
theories/SaveImages.v
theories/SaveDoc.v
theories/SaveWhole.v
theories/SaveLockSpec.v
theories/SaveLock.v
theories/SaveCheck.v
theories/SaveCases.v
theories/SaveBareCases.v
theories/Prop_Save.v
theories/GoPdfMoveSpec.v
theories/GoPdfMove.v
theories/GoPdfMoveCases.v
theories/Prop_GoPdfMove.v
theories/FontMaker.v
theories/FontMakerSpec.v
theories/FontMakerGo.v
theories/FontMakerText.v
theories/FontMakerRead.v
theories/FontMakerMap.v
theories/FontMakerChars.v
theories/RoundReal.v
theories/FontMakerInfo.v
theories/FontMakerDiff.v
theories/FontMakerMake.v
theories/FontMakerRun.v
theories/FontMakerCases.v
theories/FontMakerFinal.v
theories/Prop_FontMaker.v
theories/CoreFont.v
theories/CoreFontSpec.v
theories/CoreFontProofs.v
theories/CoreFontFinal.v
theories/Prop_CoreFont.v
theories/SaveDrawSpec.v
theories/SaveDraws.v
theories/SaveCalls.v
theories/SaveDrawn.v
theories/SaveDrawCases.v
theories/Prop_SaveDraws.v
theories/SaveWrapSpec.v
theories/SaveMore.v
theories/SaveMoreCases.v
theories/Prop_SaveMore.v
theories/KeepProofs.v
theories/Prop_Keep.v
theories/BorderSpec.v
theories/BorderLines.v
theories/BorderProofs.v
theories/BorderCases.v
theories/Prop_Border.v
theories/Alias.v
theories/AliasSpec.v
theories/AliasProofs.v
theories/Prop_Alias.v
theories/GoPdfOpenSpec.v
theories/GoPdfOpenInfo.v
theories/GoPdfOpen.v
theories/GoPdfOpenDict.v
theories/GoPdfOpenPages.v
theories/GoPdfOpenDoc.v
theories/GoPdfOpenCases.v
theories/GoPdfWordCases.v
theories/Prop_GoPdfOpen.v
theories/LockTrailerSpec.v
theories/LockTrailer.v
theories/LockOpened.v
theories/Prop_LockOpened.v
theories/SaveGoesSpec.v
theories/GoPdfReadySpec.v
theories/GoPdfReadyDict.v
theories/GoPdfReadyStream.v
theories/GoPdfReadyDoc.v
theories/GoPdfReadyTree.v
theories/GoPdfReady.v
theories/GoPdfReadyApi.v
theories/BlankSave.v
theories/GoPdfBlank.v
theories/GoPdfNoPages.v
theories/GoPdfOver.v
theories/GoPdfReadyCases.v
theories/Prop_GoPdfReady.v
theories/SaveGoesFonts.v
theories/SaveGoesImages.v
theories/SaveGoesStep.v
theories/SaveHeld.v
theories/SaveGoes.v
theories/SaveGoesFinal.v
theories/SaveGoesLock.v
theories/SaveGoesGoPdf.v
theories/SaveGoesCases.v
theories/InfoLost.v
theories/Prop_InfoLost.v
theories/SaveGoesOverCases.v
theories/Prop_SaveGoes.v
theories/KernSpec.v
theories/KernTable.v
theories/KernCases.v
theories/Prop_Kern.v
theories/GoPdfCallSpec.v
theories/GoPdfCalls.v
theories/GoPdfCallCases.v
theories/Prop_GoPdfCalls.v
theories/GoPdfSaveSpec.v
theories/GoPdfSave.v
theories/GoPdfSaveCases.v
theories/Prop_GoPdfSave.v
theories/GoPdfTextSpec.v
theories/GoPdfWrite.v
theories/GoPdfWriteCases.v
theories/Prop_GoPdfWrite.v
theories/GoPdfClose.v
theories/Prop_GoPdfClose.v
theories/GoPdfFail.v
theories/Prop_GoPdfFail.v
theories/GoPdfPerm.v
theories/Prop_GoPdfPerm.v
theories/GoPdfAgain.v
theories/Prop_GoPdfAgain.v
theories/GoPdfFailAny.v
theories/Prop_GoPdfFailAny.v
