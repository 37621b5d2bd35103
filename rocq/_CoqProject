-Q theories Verif
theories/Base.v
theories/Utilities.v
theories/BaseProofs.v
theories/SpecUtilities.v
theories/SpecDatetime.v
theories/UtilitiesProofs.v
theories/BitsliceProofs.v
theories/PropertiesUtilities.v
theories/Db.v
theories/Conn.v
theories/ClusterOps.v
theories/SpecCluster.v
theories/ClusterProofs.v
theories/SpecConn.v
theories/ConnProofs.v
theories/ClusterCalls.v
theories/SampleDb.v
theories/PropertiesCluster.v
theories/Indexing.v
theories/Lookup.v
theories/SpecIndexing.v
theories/IndexingProofs.v
theories/RebuildProofs.v
theories/IndexCalls.v
theories/PositionProofs.v
theories/LookupProofs.v
theories/PropertiesIndexing.v
theories/Measure.v
theories/Refine.v
theories/SpecRefine.v
theories/ScoreProofs.v
theories/RefineProofs.v
theories/RefineCalls.v
theories/RefineTotal.v
theories/RefineFacts.v
theories/RefineCount.v
theories/PropertiesRefine.v
theories/PropertiesCount.v
theories/History.v
theories/SpecHistory.v
theories/HistoryProofs.v
theories/PropertiesHistory.v
theories/Query.v
theories/SpecQuery.v
theories/QueryProofs.v
theories/SampleProofs.v
theories/PropertiesQuery.v
theories/Passages.v
theories/SpecPassages.v
theories/PassageProofs.v
theories/MatchProofs.v
theories/TokenProofs.v
theories/PassageCalls.v
theories/CollocationProofs.v
theories/RenderProofs.v
theories/PropertiesPassages.v
theories/Corpus.v
theories/Html.v
theories/SpecHtml.v
theories/HtmlProofs.v
theories/SpecCorpus.v
theories/CorpusProofs.v
theories/StackProofs.v
theories/StackHistory.v
theories/CorpusCalls.v
theories/PropertiesCorpus.v
theories/Migrate.v
theories/SpecMigrate.v
theories/MigrateProofs.v
theories/MigrateCalls.v
theories/PropertiesMigrate.v
theories/Web.v
theories/Cli.v
theories/SpecWeb.v
theories/WebProofs.v
theories/PropertiesWeb.v
theories/PropertiesPages.v
theories/PropertiesCli.v
theories/Reports.v
theories/SpecReports.v
theories/ReportProofs.v
theories/PropertiesReports.v
theories/Concurrent.v
theories/SpecConcurrent.v
theories/ConcurrentProofs.v
theories/Clients.v
theories/SpecClients.v
theories/ClientProofs.v
theories/PropertiesConcurrent.v
theories/Twitter.v
theories/SpecTwitter.v
theories/TwitterProofs.v
theories/PropertiesTwitter.v
theories/Csv.v
theories/SpecCsv.v
theories/CsvProofs.v
theories/PropertiesCsv.v
theories/Streams.v
theories/SpecStream.v
theories/StreamProofs.v
theories/PropertiesStream.v
theories/Tokens.v
theories/SpecTokens.v
theories/TokensProofs.v
theories/PropertiesTokens.v
theories/PropertiesPosts.v
theories/Controls.v
theories/SpecControls.v
theories/ControlProofs.v
theories/PropertiesControls.v
theories/Markup.v
theories/SpecMarkup.v
theories/MarkupProofs.v
theories/PropertiesMarkup.v
theories/PropertiesReindex.v
theories/Commands.v
theories/SpecCommands.v
theories/SpecScript.v
theories/CommandProofs.v
theories/PropertiesCommands.v
theories/PropertiesScript.v
theories/PropertiesTables.v
theories/Kills.v
theories/KillProofs.v
theories/PropertiesKills.v
theories/Dates.v
theories/SpecDates.v
theories/DatesProofs.v
theories/PropertiesDates.v
theories/Values.v
theories/SpecValues.v
theories/ValuesProofs.v
theories/PropertiesValues.v
theories/Browse.v
theories/SpecBrowse.v
theories/BrowseProofs.v
theories/PropertiesBrowse.v
theories/Rendered.v
theories/SpecRendered.v
theories/RenderedProofs.v
theories/PropertiesRendered.v
theories/Tweets.v
theories/SpecTweets.v
theories/TweetsProofs.v
theories/PropertiesTweets.v
theories/Posts.v
theories/SpecPosts.v
theories/PostsProofs.v
theories/PropertiesPostTable.v
theories/Support.v
theories/SpecSupport.v
theories/PropertiesSupport.v
theories/Copies.v
theories/PropertiesCopies.v
