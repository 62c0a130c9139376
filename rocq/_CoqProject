-Q theories Verif
theories/Uni.v
theories/Py.v
theories/Time.v
theories/Utils.v
theories/Keys.v
theories/Scanf.v
theories/GeomData.v
theories/Geom.v
theories/Handlers.v
theories/Reader.v
theories/Cli.v
theories/H5.v
theories/Writer.v
theories/Plot.v
theories/Gallery.v
theories/PyFacts.v
theories/NumFacts.v
theories/SpecText.v
theories/TextFacts.v
theories/PropText.v
theories/SpecUtils.v
theories/UtilsFacts.v
theories/SpecTime.v
theories/TimeFacts.v
theories/PropUtils.v
theories/KeyFacts.v
theories/SpecReader.v
theories/SpecNum.v
theories/SpecHistory.v
theories/SpecLookup.v
theories/SpecKeys.v
theories/SpecInterp.v
theories/SpecData.v
theories/OrderFacts.v
theories/ReaderFacts.v
theories/ReaderFacts2.v
theories/ReaderFacts3.v
theories/ReaderFacts4.v
theories/ReaderFacts5.v
theories/ReaderFacts6.v
theories/ReaderFacts7.v
theories/ReaderFacts8.v
theories/ExampleFacts.v
theories/ExnFacts.v
theories/PropReader.v
theories/DispatchFacts.v
theories/FrameFacts.v
theories/StateFacts.v
theories/InterpFacts.v
theories/MonadFacts.v
theories/HandlerFacts.v
theories/PropHandlers.v
theories/PostFacts.v
theories/DataFacts.v
theories/DataFacts2.v
theories/LastFacts.v
theories/PropData.v
theories/SpecTables.v
theories/TablesFacts.v
theories/MetaFacts.v
theories/HeaderFacts.v
theories/LinkFacts.v
theories/UseFacts.v
theories/PropTables.v
theories/SpecMeta.v
theories/MetaLineFacts.v
theories/PropMeta.v
theories/SpecDecimal.v
theories/DecimalFacts.v
theories/SpecScanf.v
theories/ScanfFacts.v
theories/PropScanf.v
theories/SpecRegistry.v
theories/PropRegistry.v
theories/SpecGeom.v
theories/GeomFacts.v
theories/GeomFacts2.v
theories/GeomFacts3.v
theories/PropGeom.v
theories/SpecCli.v
theories/CliFacts.v
theories/CliFacts2.v
theories/CliFacts3.v
theories/CliFacts4.v
theories/PropCli.v
theories/SpecH5.v
theories/SpecWriter.v
theories/NamesFacts.v
theories/H5Facts.v
theories/FrameH5.v
theories/H5Exact.v
theories/DataWrite.v
theories/KeepFacts.v
theories/WriterFrame.v
theories/SaveFacts.v
theories/HistInv.v
theories/RegFacts.v
theories/MeshWrite.v
theories/EntryData.v
theories/TableFacts.v
theories/AgainFacts.v
theories/TableFacts2.v
theories/WriterFacts.v
theories/MeshFacts.v
theories/EznxFacts.v
theories/SaveSame.v
theories/SpectraFacts.v
theories/PropWriter.v
theories/PropWriter2.v
theories/PropWriter3.v
theories/SpecPlot.v
theories/PlotFacts.v
theories/PlotFacts2.v
theories/PlotFacts3.v
theories/PlotFacts4.v
theories/PlotFacts5.v
theories/PlotFacts6.v
theories/PlotFacts7.v
theories/PropPlot.v
theories/SpecGallery.v
theories/GalleryFacts.v
theories/GalleryFacts2.v
theories/GalleryFacts3.v
theories/GalleryFacts4.v
theories/PlotLocal.v
theories/GalleryFacts5.v
theories/GalleryFacts6.v
theories/GalleryFacts7.v
theories/PropGallery.v
theories/SpecRound.v
theories/RoundFacts.v
theories/RoundFacts2.v
theories/RoundFacts3.v
theories/RoundFacts4.v
theories/RoundFacts5.v
theories/RoundFacts6.v
theories/PropRound.v
theories/SpecMca.v
theories/McaFacts.v
theories/KeyedFacts.v
theories/PropMca.v
theories/FrameK.v
theories/WriterFrameK.v
theories/GrowFacts.v
theories/ClaimFacts.v
theories/MetaWrite.v
theories/MetaWrite2.v
theories/MetaWrite3.v
theories/MetaWrite4.v
theories/RegAll.v
theories/RegAll2.v
theories/RegAll3.v
theories/SpecEntry.v
theories/EntryFacts.v
theories/PropEntry.v
theories/MetaWrite5.v
theories/MetaWrite6.v
theories/PropEntry2.v
theories/HklFacts.v
theories/RegGeo.v
theories/MetaWrite7.v
theories/MetaWrite8.v
theories/EntryFacts2.v
theories/PropEntry3.v
theories/SpecLinks.v
theories/EndLinks.v
theories/LinkClaim.v
theories/PropEntry4.v
theories/SpecRoot.v
theories/RootFacts.v
theories/PropRoot.v
theories/UxmlFacts.v
theories/SpecUxml.v
theories/UxmlWrite.v
theories/RegUxml.v
theories/UxmlEntry.v
theories/PropUxml.v
theories/SpecXref.v
theories/XrefWrite.v
theories/HdrKeep.v
theories/HdrClaim.v
theories/XrefReg.v
theories/XrefEntry.v
theories/PropXref.v
theories/MneEntry.v
theories/PropMne.v
theories/McaWrite.v
theories/RegMca.v
theories/McaEntry.v
theories/PropMcaEntry.v
theories/ReadH5.v
theories/SpecReadH5.v
theories/ReadH5Facts.v
theories/PropReadH5.v
theories/MillerData.v
theories/Report.v
theories/SpecReport.v
theories/ReportFacts.v
theories/ReportRun.v
theories/PropReport.v
theories/IndexPage.v
theories/SpecHtml.v
theories/SpecPage.v
theories/PageFacts.v
theories/PageFacts2.v
theories/PropPage.v
theories/SpecGallery2.v
theories/GalleryFacts8.v
theories/PropGallery2.v
theories/GalleryFacts9.v
theories/AppendFacts.v
theories/GalleryFacts10.v
theories/PropGallery3.v
theories/GrownFacts.v
theories/GalleryFacts11.v
theories/SpecGallery3.v
theories/GalleryFacts12.v
theories/PropGallery4.v
theories/PropGallery5.v
theories/SpecGallery4.v
theories/GalleryFacts13.v
theories/PropGallery6.v
