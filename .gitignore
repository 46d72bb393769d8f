rocq/.*.cache
rocq/.lia.cache
*.vo
*.vok
*.vos
*.glob
*.aux
rocq/Makefile*
rocq/.Makefile*
